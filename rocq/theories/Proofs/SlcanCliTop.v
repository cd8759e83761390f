(** The receiver with command line requests, over whole runs. *)
From Verif.Base Require Import Prelude.
From Verif.Model Require Import TsEst Slcan Utf8 SlcanCli.
From Verif.Spec Require Import SlcanSpec SlcanCliSpec.
From Verif.Proofs Require Import SlcanFacts SlcanCliFacts.
Local Open Scope N_scope.

Lemma echo_start q e : sendable q -> utf8_encode (q_command q) = Ok e -> hd 0 e <> LF.
Proof.
  intros (_ & H) E. destruct (q_command q) as [|x t]; [injection E as <-; discriminate|]. cbn [hd] in H.
  cbn [utf8_encode] in E. apply bind_ok in E as (b & B & E). apply bind_ok in E as (bs & _ & E). injection E as <-.
  unfold utf8_char in B. unfold LF in *. revert B. dif; intros B; try discriminate.
  all: match type of B with Ok ?v = Ok _ => assert (X : b = v) by congruence; subst b end; unfold hd, app; lia.
Qed.

Lemma run_snoc c s l h : cli_run c s (l ++ [h]) = happens c (cli_run c s l) h.
Proof. unfold cli_run. rewrite fold_left_app. reflexivity. Qed.
Lemma asked_app a b : asked (a ++ b) = asked a ++ asked b.
Proof. apply flat_map_app. Qed.
Lemma sent_app a b : sent (a ++ b) = sent a ++ sent b.
Proof. apply flat_map_app. Qed.
Lemma readings_app a b : readings (a ++ b) = readings a ++ readings b.
Proof. apply flat_map_app. Qed.
Lemma read_app a b : bytes_read (a ++ b) = bytes_read a ++ bytes_read b.
Proof. unfold bytes_read. rewrite readings_app. apply flat_map_app. Qed.
Lemma possible_before l h : possible (l ++ [h]) -> possible l.
Proof.
  intros (P & H). split.
  - rewrite sent_app in P. apply Forall_app in P as (P & _). exact P.
  - intros a b E. apply (H a (b ++ [h])). rewrite E, <- app_assoc. reflexivity.
Qed.
Lemma possible_now l : possible l -> exists unread, bytes_of (sent l) = bytes_read l ++ unread.
Proof. intros (_ & H). apply (H l []). rewrite app_nil_r. reflexivity. Qed.

(** ** Fetching *)
Lemma fetch_spec now p c p' a : fetch now p = (c, p', a) ->
  p = map a_request a ++ (match c with Some q => [q] | None => [] end) ++ p' /\ Forall (fun x => a_expired x = true) a /\
  (c = None -> p' = []) /\ (forall q, c = Some q -> expired now q = false) /\ Forall (fun x => expired now (a_request x) = true) a.
Proof.
  revert c p' a. induction p as [|q p IH]; intros c p' a H; cbn [fetch] in H.
  - injection H as <- <- <-. repeat split; [constructor|discriminate|constructor].
  - destruct (expired now q) eqn:E.
    + destruct (fetch now p) as [[c0 p0] a0]. injection H as <- <- <-. destruct (IH _ _ _ eq_refl) as (A & B & C & D & F).
      cbn [map app a_request]. split; [rewrite A at 1; reflexivity|]. split; [constructor; [reflexivity|exact B]|].
      split; [exact C|]. split; [exact D|]. constructor; [exact E|exact F].
    + injection H as <- <- <-. repeat split; [constructor|discriminate| |constructor]. intros q' [= <-]. exact E.
Qed.
(** What checking does: nothing, or a new request (or none) after some
    expired ones. *)
Lemma check_spec s now : let s' := cli_check s now in
  k_rx s' = k_rx s /\ k_errors s' = k_errors s /\
  ((s' = s /\ exists q, k_outstanding s = Some q /\ expired now q = false) \/
   exists gone, k_answers s' = k_answers s ++ gone /\ Forall (fun x => a_expired x = true) gone /\
     Forall (fun x => expired now (a_request x) = true) gone /\
     (match k_outstanding s with Some q => [q] | None => [] end) ++ k_pending s =
     map a_request gone ++ (match k_outstanding s' with Some q => [q] | None => [] end) ++ k_pending s' /\
     (k_outstanding s' = None -> k_pending s' = []) /\
     (k_outstanding s' <> None -> k_lines s' = []) /\ (k_pending s = [] -> k_lines s' = k_lines s) /\ (k_pending s <> [] -> k_lines s' = [])).
Proof.
  cbn zeta. unfold cli_check. destruct (k_outstanding s) as [q|] eqn:K.
  - destruct (expired now q) eqn:E.
    2:{ split; [reflexivity|]. split; [reflexivity|]. left. split; [reflexivity|]. exists q. auto. }
    destruct (fetch now (k_pending s)) as [[c p] a] eqn:F. apply fetch_spec in F as (A & B & C & D & G). cbn [k_rx k_errors].
    split; [reflexivity|]. split; [reflexivity|]. right. exists ({| a_request := q; a_lines := []; a_expired := true |} :: a).
    cbn [k_answers k_outstanding k_pending k_lines map a_request app]. split; [reflexivity|]. split; [constructor; [reflexivity|exact B]|].
    split; [constructor; [exact E|exact G]|]. split; [f_equal; exact A|]. split; [exact C|]. split; [|split].
    + intros N. destruct (k_pending s); [|reflexivity]. destruct c as [c|]; [|contradiction]. destruct a; discriminate.
    + intros ->. reflexivity.
    + intros N. destruct (k_pending s); [contradiction|reflexivity].
  - destruct (fetch now (k_pending s)) as [[c p] a] eqn:F. apply fetch_spec in F as (A & B & C & D & G). cbn [k_rx k_errors].
    split; [reflexivity|]. split; [reflexivity|]. right. exists a.
    cbn [k_answers k_outstanding k_pending k_lines map a_request app]. split; [reflexivity|]. split; [exact B|].
    split; [exact G|]. split; [exact A|]. split; [exact C|]. split; [|split].
    + intros N. destruct (k_pending s); [|reflexivity]. destruct c as [c|]; [|contradiction]. destruct a; discriminate.
    + intros ->. reflexivity.
    + intros N. destruct (k_pending s); [contradiction|reflexivity].
Qed.

(** ** Any stream *)
Section Any.
  Variable c : est_params.

  (** The lines collected and the answers given are what was taken. *)
  Definition collecting (s : cli) (texts : list (list N)) : Prop :=
    forall q, k_outstanding s = Some q ->
    match k_lines s with
    | [] => True
    | e :: out => exists before, texts = before ++ e :: out /\ utf8_encode (q_command q) = Ok e /\ ~ In [END_OF_TEXT] out
    end.
  Definition sound (s : cli) (texts : list (list N)) : Prop :=
    collecting s texts /\ Forall (answered texts) (k_answers s) /\
    Forall sendable ((match k_outstanding s with Some q => [q] | None => [] end) ++ k_pending s).

  Lemma answered_more texts more a : answered texts a -> answered (texts ++ more) a.
  Proof.
    intros [H|(output & D & b & e & af & -> & E & N)]; [left; exact H|]. right. exists output. split; [exact D|].
    exists b, e, (af ++ more). split; [|split; assumption]. rewrite <- !app_assoc. cbn [app]. rewrite <- app_assoc. reflexivity.
  Qed.

  Lemma decode_some l : Forall decodable l -> exists t, decode_lines l = Ok t.
  Proof.
    induction l as [|x l IH]; intros H; [exists []; reflexivity|]. apply Forall_cons_iff in H as ((t & T) & H).
    destruct (IH H) as (ts & E). exists (t :: ts). cbn [decode_lines]. rewrite T. cbn [bind]. rewrite E. reflexivity.
  Qed.

  (** One line of text. The line feed left over can only be there before the
      first line is collected. *)
  Lemma text_step s lead x texts : sound s texts -> a_lead lead -> (lead <> [] -> k_lines s = []) -> k_outstanding s <> None \/ k_lines s = [] ->
    Forall decodable texts ->
    exists s', cli_text s (lead ++ x) = Ok s' /\ sound s' (texts ++ [x]) /\ (k_outstanding s' <> None \/ k_lines s' = []).
  Proof.
    intros (SC & SA & SS) A LL KL D. unfold cli_text.
    assert (MA : Forall (answered (texts ++ [x])) (k_answers s)) by (eapply Forall_impl; [|exact SA]; intros; apply answered_more; assumption).
    destruct (k_lines s) as [|e out] eqn:L.
    - assert (Same : sound s (texts ++ [x])).
      { split; [intros q _; rewrite L; exact I|]. split; [exact MA|]. exact SS. }
      destruct (k_outstanding s) as [q|] eqn:K; [|exists s; auto].
      assert (Q : sendable q) by (apply Forall_cons_iff in SS as (Q & _); exact Q).
      destruct (utf8_encode (q_command q)) as [e|] eqn:E; [|destruct Q as (Q & _); rewrite E in Q; discriminate]. cbn [bind].
      destruct (list_eqb (lead ++ x) e) eqn:EQ; [|exists s; auto]. apply list_eqb_spec in EQ.
      eexists. split; [reflexivity|]. cbn [k_outstanding k_lines]. split; [|left; discriminate].
      assert (lead = []). { destruct A as [->| ->]; [reflexivity|]. exfalso. apply (echo_start q e Q E). rewrite <- EQ. reflexivity. }
      subst lead. cbn [app] in *. subst e.
      split.
      { intros q' [= <-]. cbn [k_lines]. exists texts. split; [reflexivity|]. split; [exact E|intros []]. }
      cbn [k_answers k_outstanding k_pending k_lines]. split; [exact MA|]. exact SS.
    - assert (lead = []). { destruct lead; [reflexivity|]. discriminate LL. discriminate. }
      subst lead. cbn [app]. destruct KL as [KL|KL]; [|discriminate]. destruct (k_outstanding s) as [q|] eqn:K; [|contradiction].
      specialize (SC q K). rewrite L in SC. destruct SC as (before & T & E & NE).
      destruct (list_eqb x [END_OF_TEXT]) eqn:EQ.
      + apply list_eqb_spec in EQ. subst x. destruct (decode_some out) as (t & Dt).
        { subst texts. apply Forall_app in D as (_ & D). apply Forall_cons_iff in D as (_ & D). exact D. }
        rewrite Dt. cbn [bind]. eexists. split; [reflexivity|]. cbn [k_outstanding k_lines]. split; [|right; reflexivity].
        split; [intros q' _; exact I|]. cbn [k_answers k_outstanding k_pending k_lines]. split.
        { apply Forall_app. split; [exact MA|]. constructor; [|constructor]. right. exists out. split; [exact Dt|].
          exists before, e, []. cbn [a_request]. split; [|split; assumption]. rewrite T, <- app_assoc. reflexivity. }
        apply Forall_app in SS as (_ & SS). destruct (k_pending s) as [|n ns]; [constructor|exact SS].
      + eexists. split; [reflexivity|]. cbn [k_outstanding k_lines]. split; [|left; discriminate].
        split.
        { intros q' [= <-]. cbn [k_lines]. exists before. split; [rewrite T, <- app_assoc; reflexivity|]. split; [exact E|].
          rewrite in_app_iff. intros [I|[I|[]]]; [contradiction|]. subst x. discriminate. }
        cbn [k_answers k_outstanding k_pending k_lines]. split; [exact MA|]. exact SS.
  Qed.

  Lemma sound_frame s texts r : sound s texts -> sound (with_rx s r) texts.
  Proof. exact (fun H => H). Qed.

  (** Many. *)
  Lemma run_sound tm tr R : forall lead s texts, sound s texts -> a_lead lead -> (lead <> [] -> k_lines s = []) ->
    k_outstanding s <> None \/ k_lines s = [] -> Forall decodable (texts ++ text_lines R) ->
    exists s', item_run c s (led lead R) tm tr = Ok s' /\ sound s' (texts ++ text_lines R) /\
      (k_outstanding s' <> None \/ k_lines s' = []) /\ (R = [] -> s' = s) /\ k_errors s' = k_errors s.
  Proof.
    induction R as [|i R IH]; intros lead s texts S A LL KL D.
    - exists s. cbn [led item_run text_lines flat_map]. rewrite app_nil_r. auto.
    - assert (exists s1, item_step c s (match i with FrameItem l => FrameItem (lead ++ l) | TextItem l => TextItem (lead ++ l) end) tm tr = Ok s1 /\
        sound s1 (texts ++ text_lines [i]) /\ (k_outstanding s1 <> None \/ k_lines s1 = []) /\ k_errors s1 = k_errors s) as (s1 & E & S1 & KL1 & ER).
      { destruct i as [l|l]; cbn [item_step text_lines flat_map app].
        - eexists. split; [reflexivity|]. rewrite app_nil_r. split; [apply sound_frame; exact S|]. split; [exact KL|reflexivity].
        - assert (D' : Forall decodable texts) by (apply Forall_app in D as (D & _); exact D).
          destruct (text_step s lead l texts S A LL KL D') as (s1 & E & S1 & KL1).
          exists s1. split; [exact E|]. split; [exact S1|]. split; [exact KL1|]. apply text_rx in E as (_ & E). exact E. }
      destruct (IH [] s1 (texts ++ text_lines [i]) S1 (or_introl eq_refl) ltac:(intros X; contradiction X; reflexivity) KL1) as (s' & E' & S' & KL' & _ & ER').
      { rewrite <- app_assoc. change (text_lines (i :: R)) with (text_lines ([i] ++ R)) in D. rewrite texts_app in D. exact D. }
      exists s'. split.
      { replace (led lead (i :: R)) with ((match i with FrameItem l => FrameItem (lead ++ l) | TextItem l => TextItem (lead ++ l) end) :: R)
          by (destruct i; reflexivity).
        cbn [item_run]. rewrite E. cbn [bind]. replace (led [] R) with R in E' by (destruct R as [|[y|y] R']; reflexivity). exact E'. }
      split; [change (text_lines (i :: R)) with (text_lines ([i] ++ R)); rewrite texts_app, app_assoc; exact S'|].
      split; [exact KL'|]. split; [discriminate|congruence].
  Qed.

  Definition inv (l : list happening) (s : cli) : Prop := exists C R lead unread L,
    sent l = C ++ R /\ bytes_of (sent l) = bytes_read l ++ unread /\ rx_data (k_rx s) ++ unread = lead ++ bytes_of R /\
    a_lead lead /\ stuck lead (rx_data (k_rx s)) R /\ (k_outstanding s <> None -> lead <> [] -> k_lines s = []) /\
    map fst L = frame_lines C /\ Forall (fun x => In (snd x) (times_of l)) L /\
    set_data (k_rx s) [] = set_data (process_tagged c rx_new L) [] /\
    sound s (text_lines C) /\ k_errors s = [].

  Lemma stuck_end lead d u i : d ++ u = lead -> stuck lead d [i].
  Proof.
    intros E. assert (L := f_equal (@length N) E). rewrite app_length in L. destruct i as [l|l]; cbn [stuck item_bytes]; rewrite app_length; cbn [length]; lia.
  Qed.

  Lemma inv_holds l : possible l -> Forall no_frame (text_lines (sent l)) -> Forall decodable (text_lines (sent l)) ->
    Forall sendable (asked l) -> inv l (cli_run c cli_new l).
  Proof.
    induction l as [|h l IH] using rev_ind; intros P NF D SQ.
    - exists [], [], [], [], []. cbn. repeat (split; [reflexivity|]). split; [left; reflexivity|]. split; [exact I|]. split; [congruence|].
      split; [reflexivity|]. split; [constructor|]. split; [reflexivity|]. split; [|reflexivity].
      split; [intros q Q; discriminate Q|]. split; constructor.
    - rewrite run_snoc. rewrite sent_app in NF, D. rewrite texts_app in NF, D. rewrite asked_app in SQ.
      apply Forall_app in NF as (NF & NF'). apply Forall_app in D as (D & D'). apply Forall_app in SQ as (SQ & SQ').
      destruct (possible_now _ P) as (unread' & U').
      specialize (IH (possible_before _ _ P) NF D SQ).
      destruct IH as (C & R & lead & unread & L & I1 & I2 & I3 & I4 & I5 & I6 & I7 & I8 & I9 & I10 & I11).
      set (s := cli_run c cli_new l) in *. destruct P as (PL & _). rewrite sent_app in PL. apply Forall_app in PL as (PL & PL').
      destruct h as [q|i|r]; cbn [happens].
      + (* a request *)
        exists C, R, lead, unread, L. rewrite sent_app, read_app. cbn [sent bytes_read readings flat_map]. rewrite !app_nil_r.
        unfold times_of. rewrite readings_app. cbn [readings flat_map]. rewrite app_nil_r.
        cbn [cli_queue k_rx k_outstanding k_lines]. repeat (split; [assumption|]). split; [|exact I11].
        destruct I10 as (A1 & A2 & A3). split; [exact A1|]. split; [exact A2|]. cbn [cli_queue k_outstanding k_pending].
        rewrite app_assoc. apply Forall_app. split; [exact A3|exact SQ'].
      + (* something is sent *)
        exists C, (R ++ [i]), lead, (unread ++ item_bytes i), L. rewrite sent_app, read_app. cbn [sent bytes_read readings flat_map app].
        rewrite !app_nil_r.
        unfold times_of. rewrite readings_app. cbn [readings flat_map]. rewrite app_nil_r.
        split; [rewrite I1, <- app_assoc; reflexivity|]. split; [rewrite bytes_app, I2, <- app_assoc; cbn [bytes_of flat_map]; rewrite app_nil_r; reflexivity|].
        split; [rewrite bytes_app, !app_assoc, I3; cbn [bytes_of flat_map]; rewrite app_nil_r; reflexivity|]. split; [exact I4|].
        split.
        { destruct R as [|j R]; [|exact I5]. cbn [bytes_of flat_map] in I3. rewrite app_nil_r in I3. cbn [app]. apply (stuck_end _ _ unread). exact I3. }
        repeat (split; [assumption|]). exact I11.
      + (* a reading *)
        rewrite sent_app, read_app in U'. change (bytes_read [Read r]) with (rd_bytes r ++ []) in U'. cbn [sent flat_map] in U'. rewrite !app_nil_r in U'.
        rewrite I2, <- app_assoc in U'. apply app_inv_head in U'. subst unread.
        assert (PR : Forall plain R) by (rewrite I1 in PL; apply Forall_app in PL as (_ & PL); exact PL).
        rewrite I1, texts_app in NF, D.
        pose proof (check_spec s (rd_now r)) as K. cbn zeta in K. set (s1 := cli_check s (rd_now r)) in *. destruct K as (K1 & K2 & K3).
        assert (S1 : sound s1 (text_lines C)).
        { destruct K3 as [(-> & _)|(gone & A1 & A2 & _ & A3 & _ & A4 & _)]; [exact I10|]. destruct I10 as (B1 & B2 & B3). split; [|split].
          - intros q Q. rewrite A4 by congruence. exact I.
          - rewrite A1. apply Forall_app. split; [exact B2|]. eapply Forall_impl; [|exact A2]. intros x X. left. exact X.
          - rewrite A3 in B3. apply Forall_app in B3 as (_ & B3). exact B3. }
        rewrite app_assoc in I3.
        assert (RX : forall L', Forall (fun x => In (snd x) (times_of l)) L -> 
           Forall (fun x => In (snd x) (times_of (l ++ [Read r]))) (L ++ map (fun x => (x, (rd_mono r, rd_real r))) L')).
        { intros L' F. unfold times_of. rewrite readings_app, map_app. apply Forall_app. split.
          - eapply Forall_impl; [|exact F]. intros x X. apply in_app_iff. left. exact X.
          - apply Forall_forall. intros x X. apply in_map_iff in X as (y & <- & _). apply in_app_iff. right. left. reflexivity. }
        destruct (k_outstanding s1) as [q|] eqn:KO.
        * (* mixed *)
          destruct (scan_items R PR lead _ unread' I4 I3) as (R1 & R2 & RE & F1 & F2 & F3).
          assert (LL : lead <> [] -> k_lines s1 = []).
          { intros NL. destruct K3 as [(X & _)|(gone & _ & _ & _ & _ & _ & A4 & _)]; [rewrite X; apply I6; [intros Z; rewrite <- X in Z; congruence|exact NL]|].
            apply A4. discriminate. }
          destruct (run_sound (rd_mono r) (rd_real r) R1 lead s1 (text_lines C) S1 I4 LL) as (s2 & E2 & S2 & KL2 & SAME & ER).
          { left. rewrite KO. discriminate. }
          { rewrite RE, texts_app in D. rewrite app_assoc in D. apply Forall_app in D as (D & _). exact D. }
          rewrite (read_mixed c s r s2 q KO) by (fold s1; rewrite F1; exact E2).
          exists (C ++ R1), R2, (after_led lead R1), unread', (L ++ map (fun x => (x, (rd_mono r, rd_real r))) (frame_lines R1)).
          rewrite sent_app, read_app. change (bytes_read [Read r]) with (rd_bytes r ++ []). cbn [sent flat_map]. rewrite !app_nil_r.
          split; [rewrite I1, RE, app_assoc; reflexivity|]. split; [rewrite I2, <- app_assoc; reflexivity|].
          split; [exact F2|]. split; [destruct R1; [exact I4|left; reflexivity]|]. split; [exact F3|]. cbn [with_data with_rx k_outstanding k_lines k_errors].
          split; [intros _ NL; destruct R1; [|contradiction NL; reflexivity]; rewrite (SAME eq_refl); apply LL; exact NL|].
          split; [rewrite map_app, map_map, I7, frames_app, map_id; reflexivity|].
          split; [apply RX; exact I8|].
          split.
          { change (set_data (k_rx s2) [] = set_data (process_tagged c rx_new (L ++ map (fun x => (x, (rd_mono r, rd_real r))) (frame_lines R1))) []).
            apply run_rx in E2. rewrite E2, K1, led_frames by exact I4.
            rewrite process_tagged_app, <- !process_tagged_data. rewrite I9, <- process_tagged_data. reflexivity. }
          split; [rewrite texts_app; exact S2|]. rewrite ER, K2. exact I11.
        * (* normal *)
          destruct (lines_items R PR lead _ unread' I4 I3) as (R1 & R2 & lead' & RE & A' & F1 & F2 & _ & F3).
          rewrite (read_normal c s r) by exact KO. fold s1.
          exists (C ++ R1), R2, lead', unread', (L ++ map (fun x => (x, (rd_mono r, rd_real r))) (frame_lines R1)).
          rewrite sent_app, read_app. change (bytes_read [Read r]) with (rd_bytes r ++ []). cbn [sent flat_map]. rewrite !app_nil_r.
          split; [rewrite I1, RE, app_assoc; reflexivity|]. split; [rewrite I2, <- app_assoc; reflexivity|].
          split; [exact F2|]. split; [exact A'|]. cbn [with_data with_rx k_outstanding k_lines k_errors k_rx rx_data].
          split.
          { destruct R2 as [|[x|x] R2]; [exact I| |]; cbn [stuck item_bytes item_line] in F3 |- *; rewrite app_length; cbn [length]; lia. }
          split; [rewrite KO; congruence|].
          split; [rewrite map_app, map_map, I7, frames_app, map_id; reflexivity|].
          split; [apply RX; exact I8|].
          split.
          { rewrite (normal_items c (rd_mono r) (rd_real r) _ R1 F1).
            2:{ rewrite RE, texts_app in NF. apply Forall_app in NF as (_ & NF). apply Forall_app in NF as (NF & _). exact NF. }
            change (set_data (process_tagged c (k_rx s) (map (fun l0 => (l0, (rd_mono r, rd_real r))) (frame_lines R1))) [] =
                    set_data (process_tagged c rx_new (L ++ map (fun x => (x, (rd_mono r, rd_real r))) (frame_lines R1))) []).
            rewrite process_tagged_app, <- !process_tagged_data. rewrite I9, <- process_tagged_data. reflexivity. }
          split; [|rewrite K2; exact I11].
          destruct S1 as (B1 & B2 & B3). split; [intros q Q; cbn [with_data with_rx k_outstanding] in Q; congruence|].
          cbn [with_data with_rx k_outstanding k_pending k_answers]. split; [|exact B3].
          rewrite texts_app. eapply Forall_impl; [|exact B2]. intros a. apply answered_more.
  Qed.
End Any.

(** ** Conclusions *)
Lemma frames_kept c l : possible l -> Forall no_frame (text_lines (sent l)) -> Forall decodable (text_lines (sent l)) ->
  Forall sendable (asked l) ->
  exists n L, map fst L = frame_lines (firstn n (sent l)) /\ Forall (fun x => In (snd x) (times_of l)) L /\
    rx_out (k_rx (cli_run c cli_new l)) = rx_out (process_tagged c rx_new L) /\ k_errors (cli_run c cli_new l) = [] /\
    forall k, (length (bytes_of (firstn k (sent l))) < length (bytes_read l))%nat -> (k <= n)%nat.
Proof.
  intros P NF D SQ. destruct (inv_holds c l P NF D SQ) as (C & R & lead & unread & L & I1 & I2 & I3 & I4 & I5 & I6 & I7 & I8 & I9 & I10 & I11).
  exists (length C), L. rewrite I1, firstn_app, firstn_all, Nat.sub_diag. cbn [firstn]. rewrite app_nil_r.
  split; [exact I7|]. split; [exact I8|]. split; [exact (f_equal rx_out I9)|]. split; [exact I11|].
  intros k K. destruct (Nat.le_gt_cases k (length C)) as [LE|GT]; [exact LE|exfalso]. rewrite firstn_app, firstn_all2, bytes_app, app_length in K by lia.
  assert (L1 := f_equal (@length N) I2). assert (L2 := f_equal (@length N) I3). rewrite I1, bytes_app, !app_length in L1. rewrite !app_length in L2.
  destruct R as [|i R].
  - rewrite firstn_nil in K. cbn [bytes_of flat_map length] in K, L1, L2. lia.
  - destruct (k - length C)%nat as [|m] eqn:M; [lia|]. cbn [firstn] in K. change (bytes_of (i :: firstn m R)) with (item_bytes i ++ bytes_of (firstn m R)) in K.
    rewrite app_length in K. destruct i; cbn [stuck] in I5; lia.
Qed.
Lemma frames_untimed c l L : no_times (map fst L) -> rx_out (k_rx (cli_run c cli_new l)) = rx_out (process_tagged c rx_new L) ->
  delivered (k_rx (cli_run c cli_new l)) = frames_in (map fst L).
Proof. intros N E. unfold delivered. rewrite E. exact (untimed c L rx_new N). Qed.
Lemma answers_sound c l : possible l -> Forall no_frame (text_lines (sent l)) -> Forall decodable (text_lines (sent l)) ->
  Forall sendable (asked l) -> Forall (answered (text_lines (sent l))) (k_answers (cli_run c cli_new l)).
Proof.
  intros P NF D SQ. destruct (inv_holds c l P NF D SQ) as (C & R & lead & unread & L & I1 & _ & _ & _ & _ & _ & _ & _ & _ & (_ & B & _) & _).
  rewrite I1, texts_app. eapply Forall_impl; [|exact B]. intros a. apply answered_more.
Qed.

(** ** Deciding on a given run *)
Lemma prefix_cases {A} (l a b : list A) : l = a ++ b -> In a (map (fun n => firstn n l) (seq 0 (S (length l)))).
Proof.
  intros ->. apply in_map_iff. exists (length a). split.
  - rewrite firstn_app, firstn_all, Nat.sub_diag. cbn [firstn]. apply app_nil_r.
  - apply in_seq. rewrite app_length. lia.
Qed.
Fixpoint starts (a b : list N) : bool :=
  match a, b with
  | [], _ => true
  | x :: a, y :: b => (x =? y) && starts a b
  | _, _ => false
  end.
Lemma starts_prefix a : forall b, starts a b = true -> prefix a b.
Proof.
  induction a as [|x a IH]; intros b H; [exists b; reflexivity|]. destruct b as [|y b]; [discriminate|]. cbn [starts] in H.
  apply andb_true_iff in H as (E & H). apply N.eqb_eq in E. subst y. destruct (IH b H) as (r & ->). exists r. reflexivity.
Qed.
Definition possibleb (l : list happening) : bool :=
  forallb (fun i => forallb (fun b => negb ((b =? CR) || (b =? LF))) (item_line i)) (sent l) &&
  forallb (fun a => starts (bytes_read a) (bytes_of (sent a))) (map (fun n => firstn n l) (seq 0 (S (length l)))).
Lemma possible_by l : possibleb l = true -> possible l.
Proof.
  unfold possibleb. intros H. apply andb_true_iff in H as (A & B). split.
  - apply Forall_forall. intros i I. rewrite forallb_forall in A. specialize (A i I). rewrite forallb_forall in A.
    split; intros X; specialize (A _ X); discriminate.
  - intros a b E. rewrite forallb_forall in B. apply starts_prefix, B. eapply prefix_cases. exact E.
Qed.

(** The receiver with an adapter that answers as it should. *)
From Verif.Base Require Import Prelude.
From Verif.Model Require Import TsEst Slcan Utf8 SlcanCli.
From Verif.Spec Require Import SlcanSpec SlcanCliSpec.
From Verif.Proofs Require Import SlcanFacts SlcanCliFacts SlcanCliTop.
Local Open Scope N_scope.

Section Exact.
  Variable c : est_params.
  Variable reply : request -> list (list N).

  Lemma whole_same q t t' : whole_output reply q t -> whole_output reply q t' -> t = t'.
  Proof. intros (e & E & -> & _) (e' & E' & -> & _). rewrite E in E'. injection E' as ->. reflexivity. Qed.
  Lemma outputs_same l t : outputs reply l t -> forall t', outputs reply l t' -> t = t'.
  Proof.
    induction 1 as [|q r t ts W O IH]; intros t' H; inversion H; subst; [reflexivity|]. f_equal; [eapply whole_same; eassumption|]. apply IH. assumption.
  Qed.
  Lemma outputs_split a b t : outputs reply (a ++ b) t -> exists t1 t2, t = t1 ++ t2 /\ outputs reply a t1 /\ outputs reply b t2.
  Proof.
    revert t. induction a as [|q a IH]; intros t H; [exists [], t; split; [reflexivity|]; split; [constructor|exact H]|].
    inversion H as [|? ? w ts W O]; subst. apply IH in O as (t1 & t2 & -> & A & B). exists (w ++ t1), t2. split; [apply app_assoc|].
    split; [constructor; assumption|exact B].
  Qed.
  Lemma outputs_one q t : outputs reply [q] t -> whole_output reply q t.
  Proof. intros H. inversion H as [|? ? w ts W O]; subst. inversion O. rewrite app_nil_r. exact W. Qed.
  Lemma outputs_snoc a b t1 t2 : outputs reply a t1 -> outputs reply b t2 -> outputs reply (a ++ b) (t1 ++ t2).
  Proof. induction 1; intros B; [exact B|]. cbn [app]. rewrite <- app_assoc. constructor; auto. Qed.

  Definition exact (s : cli) (texts : list (list N)) (all : list request) : Prop :=
    exists done rest t1, all = done ++ rest /\ outputs reply done t1 /\ texts = t1 ++ k_lines s /\ Forall2 (right_answer reply) done (k_answers s) /\
      match k_outstanding s with
      | None => rest = k_pending s /\ k_lines s = []
      | Some q => rest = q :: k_pending s /\
          (k_lines s = [] \/ exists e out more, k_lines s = e :: out /\ utf8_encode (q_command q) = Ok e /\ reply q = out ++ more)
      end.

  Lemma exact_text s x texts all ts : exact s texts all -> outputs reply all ts -> prefix (texts ++ [x]) ts -> Forall decodable texts ->
    (k_outstanding s = None -> k_pending s = []) ->
    exists s', cli_text s x = Ok s' /\ exact s' (texts ++ [x]) all /\ (k_outstanding s' = None -> k_pending s' = []).
  Proof.
    intros (done & rest & t1 & -> & O1 & -> & A & K) O (after & P) D KP.
    apply outputs_split in O as (t1' & t2 & -> & O1' & O2). rewrite (outputs_same _ _ O1' _ O1) in P. clear O1' t1'.
    rewrite <- !app_assoc in P. apply app_inv_head in P.
    unfold cli_text. destruct (k_outstanding s) as [q|].
    2:{ destruct K as (-> & KL). rewrite (KP eq_refl) in O2. inversion O2; subst. rewrite KL in *. discriminate. }
    clear KP. revert P.
    destruct K as (-> & KL). inversion O2 as [|? ? w ts3 W O3]; subst. intros P. destruct W as (e & E & -> & NE).
    destruct KL as [KL|(e' & out & more & KL & E' & RQ)]; rewrite KL in *.
    - rewrite E. cbn [bind app] in P |- *. assert (e = x) by congruence. subst e.
      replace (list_eqb x x) with true by (symmetry; apply list_eqb_spec; reflexivity).
      eexists. split; [reflexivity|]. split; [|discriminate]. exists done, (q :: k_pending s), t1. cbn [k_lines k_answers k_outstanding k_pending].
      rewrite app_nil_r. split; [reflexivity|]. split; [exact O1|]. split; [reflexivity|]. split; [exact A|].
      split; [reflexivity|]. right. exists x, [], (reply q). auto.
    - rewrite E in E'. injection E' as <-. cbn [app] in P. assert (P' : ((reply q ++ [[3]]) ++ ts3) = out ++ x :: after) by congruence.
      rewrite RQ, <- !app_assoc in P'. apply app_inv_head in P'. cbn [app] in P'. destruct more as [|y more].
      + cbn [app] in P'. assert (x = [3]) by congruence. subst x. rewrite app_nil_r in RQ.
        change (list_eqb [3] [END_OF_TEXT]) with true.
        destruct (decode_some out) as (t & T).
        { apply Forall_app in D as (_ & D). apply Forall_cons_iff in D as (_ & D). exact D. }
        rewrite T. cbn [bind]. eexists. split; [reflexivity|].
        split; [|cbn [k_outstanding k_pending]; destruct (k_pending s); [reflexivity|discriminate]].
        exists (done ++ [q]), (k_pending s), (t1 ++ e :: out ++ [[3]]). cbn [k_lines k_answers k_outstanding k_pending].
        split; [rewrite <- app_assoc; reflexivity|]. split.
        { apply outputs_snoc; [exact O1|]. rewrite <- (app_nil_r (e :: out ++ _)). constructor; [|constructor].
          exists e. split; [exact E|]. rewrite RQ in *. auto. }
        split; [rewrite app_nil_r, <- app_assoc; reflexivity|].
        split; [apply Forall2_app; [exact A|]; constructor; [|constructor]; split; [reflexivity|]; split; [reflexivity|]; rewrite RQ; exact T|].
        destruct (k_pending s) as [|n ns]; [auto|]. cbn [tl]. auto.
      + cbn [app] in P'. assert (x = y) by congruence. subst y. assert (NX : x <> [3]).
        { intros ->. apply NE. rewrite RQ. apply in_app_iff. right. left. reflexivity. }
        destruct (list_eqb x [END_OF_TEXT]) eqn:EQ; [apply list_eqb_spec in EQ; contradiction|].
        eexists. split; [reflexivity|]. split; [|discriminate]. exists done, (q :: k_pending s), t1. cbn [k_lines k_answers k_outstanding k_pending].
        split; [reflexivity|]. split; [exact O1|]. split; [rewrite <- app_assoc; reflexivity|]. split; [exact A|]. split; [reflexivity|].
        right. exists e, (out ++ [x]), more. split; [reflexivity|]. split; [exact E|]. rewrite <- app_assoc. exact RQ.
  Qed.

  Lemma exact_run tm tr R : forall s texts all ts, exact s texts all -> outputs reply all ts ->
    prefix (texts ++ text_lines R) ts -> Forall decodable (texts ++ text_lines R) -> (k_outstanding s = None -> k_pending s = []) ->
    exists s', item_run c s R tm tr = Ok s' /\ exact s' (texts ++ text_lines R) all /\ k_errors s' = k_errors s.
  Proof.
    induction R as [|i R IH]; intros s texts all ts X O P D KP.
    - exists s. cbn [item_run text_lines flat_map]. rewrite app_nil_r. auto.
    - change (text_lines (i :: R)) with (text_lines ([i] ++ R)) in *. rewrite texts_app in *. cbn [item_run]. destruct i as [x|x].
      + cbn [item_step bind text_lines flat_map app] in *.
        destruct (IH (with_rx s (fst (process_line c (k_rx s) x tm tr))) texts all ts X O P D KP) as (s' & E & X' & ER).
        exists s'. auto.
      + change (text_lines [TextItem x]) with [x] in *. rewrite app_assoc in P, D |- *. cbn [item_step].
        destruct (exact_text s x texts all ts X O) as (s1 & E & X1 & KP1).
        { destruct P as (r & ->). exists (text_lines R ++ r). rewrite app_assoc. reflexivity. }
        { rewrite <- app_assoc in D. apply Forall_app in D as (D & _). exact D. }
        { exact KP. }
        destruct (IH s1 _ all ts X1 O P D KP1) as (s' & E' & X' & ER). exists s'. rewrite E. cbn [bind].
        apply text_rx in E as (_ & E). split; [exact E'|]. split; [exact X'|congruence].
  Qed.

  Definition inv_exact (l : list happening) (s : cli) : Prop := exists C R unread,
    sent l = C ++ R /\ bytes_of (sent l) = bytes_read l ++ unread /\ rx_data (k_rx s) ++ unread = bytes_of R /\
    stuck [] (rx_data (k_rx s)) R /\ exact s (text_lines C) (asked l) /\ k_errors s = [].

  (** What has been read as a whole has been taken. *)
  Lemma taken_texts l d C R unread items : sent l = C ++ R -> bytes_of (sent l) = bytes_read l ++ unread -> d ++ unread = bytes_of R ->
    stuck [] d R -> prefix items (sent l) -> prefix (bytes_of items) (bytes_read l) -> prefix (text_lines items) (text_lines C).
  Proof.
    intros S B DD ST (more & M) (rb & PB). rewrite S in M. symmetry in M. destruct (split_cases _ _ _ _ M) as [(e & -> & E)|(e & -> & _ & E)].
    2:{ exists (text_lines e). apply texts_app. }
    destruct e as [|i e]; [rewrite app_nil_r; exists []; rewrite app_nil_r; reflexivity|].
    assert (L1 := f_equal (@length N) B). assert (L2 := f_equal (@length N) DD). assert (L3 := f_equal (@length N) PB).
    rewrite S, bytes_app, !app_length in L1. rewrite app_length in L2. rewrite bytes_app, !app_length in L3.
    change (bytes_of (i :: e)) with (item_bytes i ++ bytes_of e) in L3. rewrite app_length in L3.
    assert (e = [] \/ (0 < length (bytes_of e))%nat) as NE.
    { destruct e as [|j e]; [left; reflexivity|]. right. cbn [bytes_of flat_map]. rewrite app_length. pose proof (item_nonempty j) as Q. destruct (item_bytes j); [contradiction|cbn; lia]. }
    subst R. destruct i as [x|x]; cbn [app stuck] in ST; cbn [length] in ST.
    - destruct NE as [-> | NE]; [|lia]. exists []. rewrite texts_app, !app_nil_r. reflexivity.
    - lia.
  Qed.

  Lemma unexpired l r s C R unread done q after t1 : in_time reply (l ++ [Read r]) ->
    sent l = C ++ R -> bytes_of (sent l) = bytes_read l ++ unread -> rx_data (k_rx s) ++ unread = bytes_of R ->
    stuck [] (rx_data (k_rx s)) R -> asked l = done ++ q :: after -> outputs reply done t1 ->
    text_lines C = t1 ++ k_lines s -> (length (k_lines s) < 2 + length (reply q))%nat -> expired (rd_now r) q = false.
  Proof.
    intros T S B DD ST A O TC KL. unfold expired. apply Z.leb_gt. apply Z.nle_gt. intros LE.
    destruct (T l r [] done q after eq_refl A LE) as (items & P1 & P2 & O2).
    destruct (taken_texts _ _ _ _ _ _ S B DD ST P1 P2) as (x & X).
    apply outputs_split in O2 as (t1' & t2 & E & O1' & O2). rewrite (outputs_same _ _ O1' _ O) in E. apply outputs_one in O2 as (e & _ & -> & _).
    rewrite TC, E in X. assert (L := f_equal (@length _) X). rewrite !app_length in L. cbn [length] in L. rewrite app_length in L. cbn [length] in L. lia.
  Qed.

  Lemma obedient_before l h : obedient reply (l ++ [h]) -> obedient reply l.
  Proof. intros H a b E. apply (H a (b ++ [h])). rewrite E, <- app_assoc. reflexivity. Qed.
  Lemma in_time_before l h : in_time reply (l ++ [h]) -> in_time reply l.
  Proof. intros H a r b x q y E. apply (H a r (b ++ [h]) x q y). rewrite E, <- app_assoc. reflexivity. Qed.

  Lemma exact_holds l : possible l -> obedient reply l -> in_time reply l -> Forall decodable (text_lines (sent l)) ->
    inv_exact l (cli_run c cli_new l).
  Proof.
    induction l as [|h l IH] using rev_ind; intros P OB T D.
    - exists [], [], []. split; [reflexivity|]. split; [reflexivity|]. split; [reflexivity|]. split; [exact I|]. split; [|reflexivity].
      exists [], [], []. cbn. repeat split; constructor.
    - rewrite run_snoc. rewrite sent_app, texts_app in D. apply Forall_app in D as (D & D').
      destruct (possible_now _ P) as (unread' & U').
      specialize (IH (possible_before _ _ P) (obedient_before _ _ OB) (in_time_before _ _ T) D).
      destruct IH as (C & R & unread & I1 & I2 & I3 & I4 & I5 & I6).
      set (s := cli_run c cli_new l) in *. destruct P as (PL & _). rewrite sent_app in PL. apply Forall_app in PL as (PL & PL').
      destruct h as [q|i|r]; cbn [happens].
      + exists C, R, unread. rewrite sent_app, read_app, asked_app. cbn [sent bytes_read readings asked flat_map app]. rewrite !app_nil_r.
        cbn [cli_queue k_rx k_errors]. repeat (split; [assumption|]). split; [|exact I6].
        destruct I5 as (done & rest & t1 & A & O & TT & F & K). exists done, (rest ++ [q]), t1. cbn [cli_queue k_lines k_answers k_outstanding k_pending].
        split; [rewrite A, <- app_assoc; reflexivity|]. split; [exact O|]. split; [exact TT|]. split; [exact F|].
        destruct (k_outstanding s) as [q0|]; destruct K as (-> & K); auto.
      + exists C, (R ++ [i]), (unread ++ item_bytes i). rewrite sent_app, read_app, asked_app. cbn [sent bytes_read readings asked flat_map app].
        rewrite !app_nil_r.
        split; [rewrite I1, <- app_assoc; reflexivity|]. split; [rewrite bytes_app, I2, <- app_assoc; cbn [bytes_of flat_map]; rewrite app_nil_r; reflexivity|].
        split; [rewrite bytes_app, !app_assoc, I3; cbn [bytes_of flat_map]; rewrite app_nil_r; reflexivity|].
        split.
        { destruct R as [|j R]; [|exact I4]. cbn [app]. apply (stuck_end _ _ unread). exact I3. }
        split; [exact I5|exact I6].
      + rewrite sent_app, read_app in U'. change (bytes_read [Read r]) with (rd_bytes r ++ []) in U'. cbn [sent flat_map] in U'. rewrite !app_nil_r in U'.
        pose proof I2 as I2'. rewrite I2', <- app_assoc in U'. apply app_inv_head in U'.
        assert (PR : Forall plain R) by (rewrite I1 in PL; apply Forall_app in PL as (_ & PL); exact PL).
        destruct (obedient_before _ _ OB l [] ltac:(rewrite app_nil_r; reflexivity)) as (all & O & PO).
        rewrite I1, texts_app in D, PO.
        assert (CK : exact (cli_check s (rd_now r)) (text_lines C) (asked l) /\ k_errors (cli_check s (rd_now r)) = [] /\
          (k_outstanding (cli_check s (rd_now r)) = None -> k_pending (cli_check s (rd_now r)) = [])).
        { pose proof I5 as (done & rest & t1 & A & O1 & TT & F & K). unfold cli_check. destruct (k_outstanding s) as [q|] eqn:KO.
          - destruct K as (-> & KL).
            rewrite (unexpired l r s C R unread done q (k_pending s) t1 T I1 I2 I3 I4 A O1 TT).
            2:{ destruct KL as [KL|(e & out & more & KL & _ & E)]; rewrite KL; [cbn; lia|]. rewrite E, app_length. cbn [length]. lia. }
            split; [exact I5|]. split; [exact I6|congruence].
          - destruct K as (-> & KL). destruct (k_pending s) as [|q p] eqn:KP; cbn [fetch].
            + cbn [k_errors k_outstanding k_pending]. split; [|auto]. exists done, [], t1. cbn [k_lines k_answers k_outstanding k_pending app]. rewrite app_nil_r in A. rewrite !app_nil_r.
              split; [exact A|]. split; [exact O1|]. split; [exact TT|]. split; [exact F|]. auto.
            + rewrite (unexpired l r s C R unread done q p t1 T I1 I2 I3 I4 A O1 TT) by (rewrite KL; cbn; lia).
              cbn [k_errors k_outstanding k_pending]. split; [|split; [exact I6|discriminate]]. exists done, (q :: p), t1. cbn [k_lines k_answers k_outstanding k_pending app]. rewrite !app_nil_r.
              split; [exact A|]. split; [exact O1|]. split; [rewrite KL, app_nil_r in TT; exact TT|]. split; [exact F|]. auto. }
        destruct CK as (X1 & ER & KP). set (s1 := cli_check s (rd_now r)) in *. subst unread. rewrite app_assoc in I3.
        destruct (k_outstanding s1) as [q|] eqn:KO.
        * destruct (scan_items R PR [] _ unread' (or_introl eq_refl) I3) as (R1 & R2 & RE & F1 & F2 & F3).
          assert (AL : after_led [] R1 = []) by (destruct R1; reflexivity). rewrite AL in F2, F3.
          replace (led [] R1) with R1 in F1 by (destruct R1 as [|[y|y] R']; reflexivity).
          destruct (exact_run (rd_mono r) (rd_real r) R1 s1 (text_lines C) (asked l) all X1 O) as (s2 & E2 & X2 & ER2).
          { rewrite RE, texts_app, app_assoc in PO. destruct PO as (z & ->). exists (text_lines R2 ++ z). rewrite app_assoc. reflexivity. }
          { rewrite RE, texts_app, app_assoc in D. apply Forall_app in D as (D & _). exact D. }
          { congruence. }
          rewrite (read_mixed c s r s2 q KO) by (fold s1; rewrite F1; exact E2).
          exists (C ++ R1), R2, unread'. rewrite sent_app, read_app, asked_app. change (bytes_read [Read r]) with (rd_bytes r ++ []).
          cbn [sent asked flat_map]. rewrite !app_nil_r.
          split; [rewrite I1, RE, app_assoc; reflexivity|]. split; [rewrite I2, <- app_assoc; reflexivity|].
          split; [exact F2|]. split; [exact F3|]. split; [rewrite texts_app; exact X2|]. cbn [with_data with_rx k_errors]. congruence.
        * destruct (lines_items R PR [] _ unread' (or_introl eq_refl) I3) as (R1 & R2 & lead' & RE & A' & F1 & F2 & F4 & F3).
          assert (NT : text_lines R1 = []).
          { destruct X1 as (done & rest & t1 & A & O1 & TT & F & K). rewrite KO, (KP eq_refl) in K. destruct K as (-> & KL).
            rewrite app_nil_r in A. rewrite A in O. rewrite (outputs_same _ _ O _ O1) in PO. rewrite TT, KL, app_nil_r in PO.
            destruct PO as (z & PO). rewrite <- app_assoc in PO. rewrite <- (app_nil_r t1) in PO at 1. apply app_inv_head in PO.
            rewrite RE, texts_app in PO. destruct (text_lines R1); [reflexivity|discriminate]. }
          rewrite (read_normal c s r) by exact KO. fold s1.
          assert (lead' = []) by (rewrite F4 by exact NT; destruct R1; reflexivity). subst lead'.
          exists (C ++ R1), R2, unread'. rewrite sent_app, read_app, asked_app. change (bytes_read [Read r]) with (rd_bytes r ++ []).
          cbn [sent asked flat_map]. rewrite !app_nil_r.
          split; [rewrite I1, RE, app_assoc; reflexivity|]. split; [rewrite I2, <- app_assoc; reflexivity|].
          split; [exact F2|]. cbn [with_data with_rx k_rx rx_data k_errors]. split.
          { destruct R2 as [|[x|x] R2]; [exact I| |]; cbn [stuck item_bytes item_line length] in F3 |- *; rewrite app_length; cbn [length]; lia. }
          split; [|exact ER]. rewrite texts_app, NT, app_nil_r. exact X1.
  Qed.

  Lemma exact_answers l : possible l -> obedient reply l -> in_time reply l -> Forall decodable (text_lines (sent l)) ->
    exists done rest, asked l = done ++ rest /\ Forall2 (right_answer reply) done (k_answers (cli_run c cli_new l)) /\
      k_errors (cli_run c cli_new l) = [] /\
      forall items whole, prefix items (sent l) -> prefix (bytes_of items) (bytes_read l) -> prefix whole (asked l) ->
        outputs reply whole (text_lines items) -> prefix whole done.
  Proof.
    intros P OB T D. destruct (exact_holds l P OB T D) as (C & R & unread & I1 & I2 & I3 & I4 & I5 & I6).
    destruct I5 as (done & rest & t1 & A & O & TT & F & K). exists done, rest. split; [exact A|]. split; [exact F|]. split; [exact I6|].
    intros items whole PI PB (wr & PW) OW. rewrite A in PW. symmetry in PW.
    destruct (split_cases _ _ _ _ PW) as [(e & -> & E)|(e & -> & _ & _)]; [|exists e; reflexivity].
    destruct e as [|q e]; [rewrite app_nil_r; exists []; rewrite app_nil_r; reflexivity|]. exfalso.
    destruct (taken_texts _ _ _ _ _ _ I1 I2 I3 I4 PI PB) as (z & Z).
    apply outputs_split in OW as (t1' & t2 & E1 & O1 & O2). rewrite (outputs_same _ _ O1 _ O) in E1. rewrite TT, E1, <- app_assoc in Z. apply app_inv_head in Z.
    inversion O2 as [|? ? w ts W O3]; subst. destruct W as (ec & _ & -> & _).
    assert (L := f_equal (@length _) Z). rewrite !app_length in L. cbn [length] in L. rewrite app_length in L. cbn [length] in L.
    destruct (k_outstanding _) as [q0|].
    - destruct K as (EE & KL). injection EE as EE _. subst q0. destruct KL as [KL|(e0 & out & more & KL & _ & RQ)]; rewrite KL in L; [cbn [length] in L; lia|].
      rewrite RQ, app_length in L. cbn [length] in L. lia.
    - destruct K as (_ & KL). rewrite KL in L. cbn [length] in L. lia.
  Qed.
End Exact.

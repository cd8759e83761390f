(** Facts about the update handlers of the node monitor. *)
From Verif.Base Require Import Prelude.
From Verif.Model Require Import Monitor Watchers.
From Verif.Spec Require Import WatchersSpec.
From Verif.Proofs Require MonitorFacts.
Local Open Scope Z_scope.

Lemma Neqb_spec a b : (a =? b)%N = true <-> a = b.
Proof. apply N.eqb_eq. Qed.

Definition wf (s : watched) : Prop :=
  NoDup (wa_callbacks s) /\ Forall (fun h => (h < wa_next s)%nat) (wa_callbacks s) /\
  Forall (fun c => (fst c < wa_next s)%nat) (wa_calls s).

Lemma notices_app h a b : notices h (a ++ b) = notices h a ++ notices h b.
Proof. unfold notices. apply flat_map_app. Qed.
Lemma events_app a b : events (a ++ b) = events a ++ events b.
Proof. unfold events. apply filter_app. Qed.

(** Registration and removal. *)
Lemma wf_add s : wf s -> wf (add_handler s).
Proof.
  intros (A & B & C). unfold wf, add_handler. cbn [wa_callbacks wa_next wa_calls with_callbacks]. split; [|split].
  - assert (N : ~ In (wa_next s) (wa_callbacks s)).
    { intros I. pose proof (proj1 (Forall_forall _ _) B _ I). cbv beta in *. lia. }
    clear -A N. induction (wa_callbacks s) as [|x l IH]; cbn [app]; [repeat constructor; intros []|].
    apply NoDup_cons_iff in A as (A1 & A2). constructor.
    + rewrite in_app_iff. intros [I|[I|[]]]; [contradiction|]. apply N. left. congruence.
    + apply IH; [exact A2|]. intros I. apply N. right. exact I.
  - apply Forall_app. split; [|repeat constructor]. eapply Forall_impl; [|exact B]. cbv beta. intros. lia.
  - eapply Forall_impl; [|exact C]. cbv beta. intros. lia.
Qed.

Lemma remove_one_in h l l' : remove_one h l = Ok l' -> forall x, In x l' -> In x l.
Proof.
  revert l'. induction l as [|y l IH]; intros l' E x I; cbn in E; [discriminate|].
  destruct (Nat.eqb y h). { injection E as <-. right. exact I. }
  destruct (remove_one h l) as [r|] eqn:R; [|discriminate]. injection E as <-.
  destruct I as [<-|I]; [left; reflexivity|right; eapply IH; eauto].
Qed.
Lemma remove_one_other h l l' x : remove_one h l = Ok l' -> In x l -> x <> h -> In x l'.
Proof.
  revert l'. induction l as [|y l IH]; intros l' E I N; cbn in E; [discriminate|].
  destruct (Nat.eqb_spec y h) as [->|NE].
  { injection E as <-. destruct I as [<-|I]; [contradiction|exact I]. }
  destruct (remove_one h l) as [r|] eqn:R; [|discriminate]. injection E as <-.
  destruct I as [<-|I]; [left; reflexivity|right; eapply IH; eauto].
Qed.
Lemma remove_one_nodup h l l' : remove_one h l = Ok l' -> NoDup l -> NoDup l' /\ ~ In h l'.
Proof.
  revert l'. induction l as [|y l IH]; intros l' E N; cbn in E; [discriminate|].
  apply NoDup_cons_iff in N as (A & B). destruct (Nat.eqb_spec y h) as [->|NE].
  { injection E as <-. split; [exact B|exact A]. }
  destruct (remove_one h l) as [r|] eqn:R; [|discriminate]. injection E as <-.
  destruct (IH r eq_refl B) as (X & Y). split.
  - constructor; [|exact X]. intros I. apply A. eapply remove_one_in; eauto.
  - intros [I|I]; [congruence|contradiction].
Qed.
Lemma remove_one_length h l l' : remove_one h l = Ok l' -> (length l' <= length l)%nat.
Proof.
  revert l'. induction l as [|y l IH]; intros l' E; cbn in E; [discriminate|].
  destruct (Nat.eqb y h). { injection E as <-. cbn. lia. }
  destruct (remove_one h l) as [r|] eqn:R; [|discriminate]. injection E as <-. cbn. specialize (IH r eq_refl). lia.
Qed.

Lemma wf_remove s h : wf s -> wf (fst (remove_handler s h)).
Proof.
  intros (A & B & C). unfold remove_handler. destruct (remove_one h (wa_callbacks s)) as [l|] eqn:R; [|repeat split; assumption].
  unfold wf. cbn. split; [exact (proj1 (remove_one_nodup _ _ _ R A))|]. split; [|exact C].
  apply Forall_forall. intros x I. apply (proj1 (Forall_forall _ _) B). eapply remove_one_in; eauto.
Qed.
Lemma remove_frame s h : wa_monitor (fst (remove_handler s h)) = wa_monitor s /\ wa_next (fst (remove_handler s h)) = wa_next s /\
  wa_calls (fst (remove_handler s h)) = wa_calls s /\ wa_open (fst (remove_handler s h)) = wa_open s.
Proof. unfold remove_handler. destruct (remove_one h (wa_callbacks s)); repeat split. Qed.

(** What the operations of a handler leave alone. *)
Lemma ops_frame ops : forall s s' x, apply_ops s ops = (s', x) ->
  wa_monitor s' = wa_monitor s /\ wa_calls s' = wa_calls s /\ wa_open s' = wa_open s /\ (wa_next s <= wa_next s')%nat /\
  (wf s -> wf s') /\ (forall h, (h < wa_next s)%nat -> ~ In h (wa_callbacks s) -> ~ In h (wa_callbacks s')).
Proof.
  induction ops as [|[|k] ops IH]; intros s s' x E; cbn [apply_ops] in E.
  - injection E as <- <-. split; [reflexivity|]. split; [reflexivity|]. split; [reflexivity|]. split; [lia|]. split; auto.
  - destruct (IH _ _ _ E) as (A & B & C & D & F & G). cbn in A, B, C, D. split; [exact A|]. split; [exact B|].
    split; [exact C|]. split; [lia|]. split; [intros W; apply F, wf_add, W|].
    intros h L N. apply G; cbn; [lia|]. rewrite in_app_iff. intros [I|[I|[]]]; [contradiction|lia].
  - destruct (remove_frame s k) as (A & B & C & D). pose proof (wf_remove s k) as W.
    assert (Nh : forall h, ~ In h (wa_callbacks s) -> ~ In h (wa_callbacks (fst (remove_handler s k)))).
    { intros h N. unfold remove_handler. destruct (remove_one k (wa_callbacks s)) eqn:R; [|exact N]. cbn.
      intros I. apply N. eapply remove_one_in; eauto. }
    destruct (remove_handler s k) as [s1 [y|]] eqn:R; cbn [fst] in *.
    + injection E as <- <-. rewrite A, B, C, D. split; [reflexivity|]. split; [reflexivity|]. split; [reflexivity|]. split; [lia|].
      split; [exact W|]. intros h _. apply Nh.
    + destruct (IH _ _ _ E) as (A' & B' & C' & D' & F' & G'). split; [congruence|]. split; [congruence|]. split; [congruence|].
      split; [lia|]. split; [auto|].
      intros h L N. apply G'; [lia|auto].
Qed.

Section Facts.
  Variables timeout min_retry : Z.
  Variable beh : list notice -> list watch_op * option exn.
  Variable fuel : nat.
  Notation reporting := (report beh fuel).
  Notation stepping := (wstep timeout min_retry beh fuel).
  Notation running := (wrun timeout min_retry beh fuel).

  Lemma wf_call s h o : wf s -> In h (wa_callbacks s) -> wf (with_call s (h, o)).
  Proof.
    intros (A & B & C) I. unfold wf. cbn. split; [exact A|]. split; [exact B|]. apply Forall_app. split; [exact C|].
    repeat constructor. cbn. apply (proj1 (Forall_forall _ _) B). exact I.
  Qed.

  (** Whatever handlers do: the monitor is as it was, and one that is not
      registered is not called. *)
  Lemma calls_frame n : forall s i o s' x, call_handlers beh n s i o = Some (s', x) ->
    wa_monitor s' = wa_monitor s /\ wa_open s' = wa_open s /\ (wa_next s <= wa_next s')%nat /\ (wf s -> wf s') /\
    (forall h, (h < wa_next s)%nat -> ~ In h (wa_callbacks s) ->
       ~ In h (wa_callbacks s') /\ notices h (wa_calls s') = notices h (wa_calls s)).
  Proof.
    induction n as [|n IH]; intros s i o s' x E; cbn [call_handlers] in E; [discriminate|].
    destruct (nth_error (wa_callbacks s) i) as [k|] eqn:K; [|injection E as <- <-; split; [reflexivity|]; split; [reflexivity|]; split; [lia|]; split; [auto|]; intros; split; [assumption|reflexivity]].
    destruct (beh (wa_calls (with_call s (k, o)))) as [ops y].
    destruct (apply_ops (with_call s (k, o)) ops) as [s1 z] eqn:O.
    destruct (ops_frame _ _ _ _ O) as (A & B & C & D & F & G). cbn in A, B, C, D, F, G.
    pose proof (nth_error_In _ _ K) as IK.
    assert (H0 : forall h, (h < wa_next s)%nat -> ~ In h (wa_callbacks s) ->
        ~ In h (wa_callbacks s1) /\ notices h (wa_calls s1) = notices h (wa_calls s)).
    { intros h L N. split; [apply G; [exact L|exact N]|]. rewrite B, notices_app. cbn.
      destruct (Nat.eqb_spec k h) as [->|NE]; [contradiction|]. apply app_nil_r. }
    assert (W1 : wf s -> wf s1) by (intros W; apply F, wf_call; assumption).
    destruct z as [z|]; [|destruct y as [y|]].
    - injection E as <- <-. split; [exact A|]. split; [exact C|]. split; [exact D|]. split; [exact W1|exact H0].
    - injection E as <- <-. split; [exact A|]. split; [exact C|]. split; [exact D|]. split; [exact W1|exact H0].
    - destruct (IH _ _ _ _ _ E) as (A' & C' & D' & F' & G'). split; [congruence|]. split; [congruence|]. split; [lia|].
      split; [auto|]. intros h L N. destruct (H0 h L N) as (P & Q). destruct (G' h) as (P' & Q'); [lia|exact P|].
      split; [exact P'|congruence].
  Qed.

  Lemma report_frame s o s' x : reporting s o = Some (s', x) ->
    wa_monitor s' = say (wa_monitor s) o /\ wa_open s' = wa_open s /\ (wa_next s <= wa_next s')%nat /\ (wf s -> wf s') /\
    (forall h, (h < wa_next s)%nat -> ~ In h (wa_callbacks s) ->
       ~ In h (wa_callbacks s') /\ notices h (wa_calls s') = notices h (wa_calls s)).
  Proof. unfold report. intros E. apply calls_frame in E. exact E. Qed.

  (** With tame handlers all are called, in order. *)

  Lemma tame_ops : forall ops s s' x, (forall h, ~ In (WHRemove h) ops) -> apply_ops s ops = (s', x) ->
    x = None /\ exists added, wa_callbacks s' = wa_callbacks s ++ added.
  Proof.
    induction ops as [|[|k] ops IH]; intros s s' x N E; cbn [apply_ops] in E.
    - injection E as <- <-. split; [reflexivity|]. exists []. symmetry. apply app_nil_r.
    - destruct (IH _ _ _ (fun h I => N h (or_intror I)) E) as (-> & added & A). split; [reflexivity|].
      exists (wa_next s :: added). rewrite A. cbn. rewrite <- app_assoc. reflexivity.
    - exfalso. apply (N k). left. reflexivity.
  Qed.

  Lemma tame_calls n : tame beh -> forall s i o s' x, call_handlers beh n s i o = Some (s', x) ->
    x = None /\ exists added, wa_callbacks s' = wa_callbacks s ++ added /\
      wa_calls s' = wa_calls s ++ map (fun h => (h, o)) (skipn i (wa_callbacks s ++ added)).
  Proof.
    intros T. induction n as [|n IH]; intros s i o s' x E; cbn [call_handlers] in E; [discriminate|].
    destruct (nth_error (wa_callbacks s) i) as [k|] eqn:K.
    2:{ injection E as <- <-. split; [reflexivity|]. exists []. rewrite app_nil_r. split; [reflexivity|].
        apply nth_error_None in K. rewrite skipn_all2 by exact K. symmetry. apply app_nil_r. }
    destruct (T (wa_calls (with_call s (k, o)))) as (T1 & T2).
    destruct (beh (wa_calls (with_call s (k, o)))) as [ops y]. cbn [fst snd] in T1, T2. subst y.
    destruct (apply_ops (with_call s (k, o)) ops) as [s1 z] eqn:O.
    destruct (tame_ops _ _ _ _ T2 O) as (-> & a1 & A1). destruct (ops_frame _ _ _ _ O) as (_ & B & _).
    destruct (IH _ _ _ _ _ E) as (-> & a2 & A2 & C2). split; [reflexivity|]. exists (a1 ++ a2).
    cbn in A1, B. rewrite A1 in A2, C2. split; [rewrite A2, app_assoc; reflexivity|].
    rewrite C2, B, <- !app_assoc. f_equal. cbn [app].
    apply nth_error_split in K as (l1 & l2 & K & L). rewrite K, <- !app_assoc. cbn [app].
    rewrite <- L. replace (S (length l1)) with (length (l1 ++ [k])) by (rewrite app_length; cbn; lia).
    replace (l1 ++ k :: l2 ++ a1 ++ a2) with ((l1 ++ [k]) ++ l2 ++ a1 ++ a2) by (rewrite <- app_assoc; reflexivity).
    rewrite skipn_app, skipn_all, Nat.sub_diag. cbn [skipn app]. rewrite <- app_assoc, skipn_app, skipn_all, Nat.sub_diag.
    reflexivity.
  Qed.

  Lemma notices_map h o l : notices h (map (fun h => (h, o)) l) = repeat o (count_occ Nat.eq_dec l h).
  Proof.
    induction l as [|k l IH]; [reflexivity|]. cbn. fold (notices h (map (fun h => (h, o)) l)). rewrite IH.
    destruct (Nat.eqb_spec k h) as [->|N].
    - destruct (Nat.eq_dec h h) as [_|N]; [reflexivity|contradiction].
    - destruct (Nat.eq_dec k h) as [E|_]; [contradiction|reflexivity].
  Qed.

  Lemma tame_report s o s' x : tame beh -> wf s -> reporting s o = Some (s', x) ->
    x = None /\ forall h, In h (wa_callbacks s) -> In h (wa_callbacks s') /\ notices h (wa_calls s') = notices h (wa_calls s) ++ [o].
  Proof.
    intros T W E. pose proof (report_frame _ _ _ _ E) as (_ & _ & _ & W' & _). specialize (W' W).
    unfold report in E. destruct (tame_calls _ T _ _ _ _ _ E) as (-> & added & A & C). cbn in A, C.
    split; [reflexivity|]. intros h I. assert (I' : In h (wa_callbacks s')) by (rewrite A; apply in_or_app; left; exact I).
    split; [exact I'|]. rewrite C, notices_app, notices_map, <- A. f_equal.
    rewrite (proj1 (NoDup_count_occ' Nat.eq_dec _) (proj1 W') h I'). reflexivity.
  Qed.

  (** A relation that holds of the small steps holds of what comes in. *)
  Section Steps.
    Variable R : watched -> watched -> Prop.
    Hypothesis R_refl : forall s, R s s.
    Hypothesis R_trans : forall a b c, R a b -> R b c -> R a c.
    Hypothesis R_quiet : forall s m, mo_log m = mo_log (wa_monitor s) -> R s (with_monitor s m).
    Hypothesis R_say : forall s o, is_event o = false -> R s (with_monitor s (say (wa_monitor s) o)).
    Hypothesis R_report : forall s o s' x, is_event o = true -> reporting s o = Some (s', x) -> R s s'.

    Lemma get_rel s n now s' r : wget timeout beh fuel s n now = Some (s', r) -> R s s'.
    Proof.
      unfold wget. intros E. destruct (dget N.eqb (mo_registry (wa_monitor s)) n) as [e|]; [|injection E as <- <-; apply R_refl].
      destruct (stale timeout e now); [|injection E as <- <-; apply R_refl].
      destruct (reporting s (MOffline n)) as [[s1 [x|]]|] eqn:P; [| |discriminate]; injection E as <- <-.
      - eapply R_report; [|exact P]. reflexivity.
      - eapply R_trans; [eapply R_report; [|exact P]; reflexivity|]. apply R_quiet. reflexivity.
    Qed.

    Lemma find_rel s n now s' r : find_entry timeout beh fuel s n now = Some (s', r) -> R s s'.
    Proof.
      unfold find_entry. intros E. destruct (wget timeout beh fuel s n now) as [[s1 [e|x]]|] eqn:G; [| |discriminate].
      - injection E as <- <-. eapply get_rel; exact G.
      - apply get_rel in G. destruct x; injection E as <- <-; try exact G.
        eapply R_trans; [exact G|]. apply R_quiet. reflexivity.
    Qed.

    Lemma ask_rel s n e an s' x : ask min_retry s n e an = (s', x) -> R s s'.
    Proof.
      unfold ask. destruct (_ && _ && _); [|intros E; injection E as <- <-; apply R_refl].
      destruct (en_retries e) as [|k]; intros E; injection E as <- <-; [apply R_quiet; reflexivity|].
      set (m := put (wa_monitor s) n (Entry (en_uptime e) (en_info e) (en_ts e) k (en_ts e))).
      exact (R_trans _ _ _ (R_quiet s m eq_refl) (R_say (with_monitor s m) (MAsk n (en_ts e)) eq_refl)).
    Qed.

    Lemma sweep_rel now l : forall s s' x, sweep timeout beh fuel l s now = Some (s', x) -> R s s'.
    Proof.
      induction l as [|[n e] l IH]; intros s s' x E; cbn [sweep] in E; [injection E as <- <-; apply R_refl|].
      destruct (stale timeout e (now n)); [|eapply IH; exact E].
      destruct (reporting _ _) as [[s1 [y|]]|] eqn:P; [| |discriminate].
      - injection E as <- <-. eapply R_trans; [apply R_quiet|eapply R_report; [|exact P]]; reflexivity.
      - eapply R_trans; [apply R_quiet|eapply R_trans; [eapply R_report; [|exact P]|eapply IH; exact E]]; reflexivity.
    Qed.

    Lemma status_rel s n up ts now an s' x : won_status timeout min_retry beh fuel s n up ts now an = Some (s', x) -> R s s'.
    Proof.
      unfold won_status. intros E. destruct (find_entry timeout beh fuel s n now) as [[s1 [[e b]|y]]|] eqn:F; [| |discriminate].
      2:{ injection E as <- <-. eapply find_rel; exact F. }
      eapply R_trans; [eapply find_rel; exact F|].
      eapply R_trans; [apply R_quiet with (m := put (wa_monitor s1) n (update_from_status e up ts)); reflexivity|].
      destruct b.
      - destruct (reporting _ _) as [[s2 [y|]]|] eqn:P; [| |discriminate].
        + injection E as <- <-. eapply R_report; [|exact P]; reflexivity.
        + injection E as E. eapply R_trans; [eapply R_report; [|exact P]; reflexivity|]. eapply ask_rel; exact E.
      - injection E as E. eapply ask_rel; exact E.
    Qed.

    Lemma info_rel s n up i ts now text s' x : won_info timeout beh fuel s n up i ts now text = Some (s', x) -> R s s'.
    Proof.
      unfold won_info. intros E. destruct (find_entry timeout beh fuel s n now) as [[s1 [[e b]|y]]|] eqn:F; [| |discriminate].
      2:{ injection E as <- <-. eapply find_rel; exact F. }
      eapply R_trans; [eapply find_rel; exact F|].
      eapply R_trans; [apply R_quiet with (m := put (wa_monitor s1) n (update_from_info e up i ts)); reflexivity|].
      destruct text; [eapply R_report; [|exact E]; reflexivity|]. injection E as <- <-. apply R_refl.
    Qed.

    Lemma request_rel s n ts now s' x : won_request timeout beh fuel s n ts now = Some (s', x) -> R s s'.
    Proof.
      unfold won_request. intros E. destruct (find_entry timeout beh fuel s n now) as [[s1 [[e b]|y]]|] eqn:F; [| |discriminate].
      2:{ injection E as <- <-. eapply find_rel; exact F. }
      injection E as <- <-. eapply R_trans; [eapply find_rel; exact F|]. apply R_quiet. reflexivity.
    Qed.

    Lemma in_rel s e s' x : stepping s (WIn e) = Some (s', x) -> R s s'.
    Proof.
      intros E. cbn [wstep] in E.
      assert (R0 : R s (with_monitor s (say (wa_monitor s) (MIn e)))) by (apply R_say; reflexivity).
      destruct e as [n up ts now an|n up i ts now text|n ts now|now|n now].
      - destruct (wa_open s); [|injection E as <- <-; apply R_refl]. eapply R_trans; [exact R0|eapply status_rel; exact E].
      - eapply R_trans; [exact R0|eapply info_rel; exact E].
      - eapply R_trans; [exact R0|eapply request_rel; exact E].
      - destruct (wa_open s); [|injection E as <- <-; apply R_refl]. eapply R_trans; [exact R0|eapply sweep_rel; exact E].
      - destruct (wget _ _ _ _ _ _) as [[s1 [y|y]]|] eqn:G; [| |discriminate]; injection E as <- <-;
          (eapply R_trans; [exact R0|eapply get_rel; exact G]).
    Qed.
  End Steps.

  (** The registrations stay sound. *)
  Lemma step_wf s e s' x : stepping s e = Some (s', x) -> wf s -> wf s'.
  Proof.
    intros E. destruct e as [e| | | |].
    - refine (in_rel (fun a b => wf a -> wf b) _ _ _ _ _ _ _ _ _ E); [auto|auto|auto|auto|].
      intros s0 o s1 y _ P. exact (proj1 (proj2 (proj2 (proj2 (report_frame _ _ _ _ P))))).
    - cbn in E. injection E as <- <-. apply wf_add.
    - cbn in E. injection E as E. intros W. pose proof (wf_remove s h W) as W'. rewrite E in W'. exact W'.
    - cbn in E. injection E as <- <-. apply wf_remove.
    - cbn in E. destruct (wa_open s); injection E as <- <-; auto.
  Qed.
  Lemma run_wf es : forall s s', running s es = Some s' -> wf s -> wf s'.
  Proof.
    induction es as [|e es IH]; intros s s' E W; cbn [wrun] in E; [injection E as <-; exact W|].
    destruct (stepping s e) as [[s1 x]|] eqn:P; [|discriminate]. eapply IH; [exact E|]. eapply step_wf; eauto.
  Qed.
  Lemma new_wf : wf new_watched.
  Proof. repeat split; constructor. Qed.

  (** A handler that is registered is told every event. *)
  Definition follows (h : nat) (s s' : watched) : Prop :=
    wf s -> In h (wa_callbacks s) -> wf s' /\ In h (wa_callbacks s') /\
    exists l, mo_log (wa_monitor s') = mo_log (wa_monitor s) ++ l /\
      notices h (wa_calls s') = notices h (wa_calls s) ++ events l.

  Lemma follows_refl h s : follows h s s.
  Proof. intros W I. split; [exact W|]. split; [exact I|]. exists []. split; symmetry; apply app_nil_r. Qed.
  Lemma follows_trans h a b c : follows h a b -> follows h b c -> follows h a c.
  Proof.
    intros A B W I. destruct (A W I) as (W1 & I1 & l1 & L1 & N1). destruct (B W1 I1) as (W2 & I2 & l2 & L2 & N2).
    split; [exact W2|]. split; [exact I2|]. exists (l1 ++ l2). rewrite L2, L1, N2, N1, events_app, !app_assoc. split; reflexivity.
  Qed.

  Lemma step_follows h s e s' x : tame beh -> e <> WRemove h -> e <> WTryRemove h ->
    stepping s e = Some (s', x) -> follows h s s'.
  Proof.
    intros T N1 N2 E. destruct e as [e| |k|k|].
    - refine (in_rel (follows h) _ _ _ _ _ _ _ _ _ E); [apply follows_refl|apply follows_trans| | |].
      + intros s0 m L W I. split; [exact W|]. split; [exact I|]. exists []. cbn. rewrite L, !app_nil_r. split; reflexivity.
      + intros s0 o Q W I. split; [exact W|]. split; [exact I|]. exists [o]. cbn. rewrite Q. split; [reflexivity|].
        symmetry. apply app_nil_r.
      + intros s0 o s1 y Q P W I. destruct (tame_report _ _ _ _ T W P) as (_ & A). destruct (A h I) as (B & C).
        destruct (report_frame _ _ _ _ P) as (D & _ & _ & F & _). split; [auto|]. split; [exact B|]. exists [o].
        rewrite D. cbn. rewrite Q. split; [reflexivity|exact C].
    - cbn in E. injection E as <- <-. intros W I. split; [apply wf_add; exact W|]. cbn.
      split; [apply in_or_app; left; exact I|]. exists []. rewrite !app_nil_r. split; reflexivity.
    - cbn in E. injection E as E. intros W I. pose proof (wf_remove s k W) as W'. pose proof (remove_frame s k) as (A & _ & C & _).
      rewrite E in W', A, C. cbn [fst] in *. split; [exact W'|]. split; [|exists []; rewrite A, C, !app_nil_r; split; reflexivity].
      unfold remove_handler in E. destruct (remove_one k (wa_callbacks s)) as [l|] eqn:Q; injection E as <- <-; [|exact I].
      cbn. eapply remove_one_other; [exact Q|exact I|]. intros ->. apply N1. reflexivity.
    - cbn in E. injection E as <- <-. intros W I. unfold try_remove.
      pose proof (wf_remove s k W) as W'. pose proof (remove_frame s k) as (A & _ & C & _).
      split; [exact W'|]. split; [|exists []; rewrite A, C, !app_nil_r; split; reflexivity].
      unfold remove_handler. destruct (remove_one k (wa_callbacks s)) as [l|] eqn:Q; [|exact I].
      cbn. eapply remove_one_other; [exact Q|exact I|]. intros ->. apply N2. reflexivity.
    - cbn in E. destruct (wa_open s); injection E as <- <-; [|apply follows_refl]. intros W I.
      split; [exact W|]. split; [exact I|]. exists []. cbn. rewrite !app_nil_r. split; reflexivity.
  Qed.

  Lemma run_follows h es : tame beh -> forall s s', ~ In (WRemove h) es -> ~ In (WTryRemove h) es ->
    running s es = Some s' -> follows h s s'.
  Proof.
    intros T. induction es as [|e es IH]; intros s s' N1 N2 E; cbn [wrun] in E; [injection E as <-; apply follows_refl|].
    destruct (stepping s e) as [[s1 x]|] eqn:P; [|discriminate]. eapply follows_trans.
    - eapply step_follows; [exact T| | |exact P]; intros ->; [apply N1|apply N2]; left; reflexivity.
    - apply IH; [intros I; apply N1; right; exact I|intros I; apply N2; right; exact I|exact E].
  Qed.

  Lemma notices_fresh s : wf s -> notices (wa_next s) (wa_calls s) = [].
  Proof.
    intros (_ & _ & C). induction (wa_calls s) as [|c l IH]; [reflexivity|]. apply Forall_cons_iff in C as (C1 & C2).
    cbn. fold (notices (wa_next s) l). rewrite (IH C2). destruct (Nat.eqb_spec (fst c) (wa_next s)); [lia|reflexivity].
  Qed.

  Theorem told es1 es2 s1 s2 : tame beh -> running new_watched es1 = Some s1 ->
    let h := wa_next s1 in ~ In (WRemove h) es2 -> ~ In (WTryRemove h) es2 ->
    running s1 (WAdd :: es2) = Some s2 ->
    exists l, mo_log (wa_monitor s2) = mo_log (wa_monitor s1) ++ l /\ notices h (wa_calls s2) = events l.
  Proof.
    intros T R1 h N1 N2 R2. pose proof (run_wf _ _ _ R1 new_wf) as W. cbn [wrun wstep] in R2.
    destruct (run_follows h es2 T _ _ N1 N2 R2) as (_ & _ & l & L & N); [apply wf_add; exact W| |].
    { cbn. apply in_or_app. right. left. reflexivity. }
    exists l. split; [exact L|]. rewrite N. cbn [add_handler with_callbacks wa_calls]. unfold h. rewrite notices_fresh by exact W.
    reflexivity.
  Qed.

  (** One that was removed is told nothing. *)
  Definition ignores (h : nat) (s s' : watched) : Prop :=
    (h < wa_next s)%nat -> ~ In h (wa_callbacks s) ->
    (h < wa_next s')%nat /\ ~ In h (wa_callbacks s') /\ notices h (wa_calls s') = notices h (wa_calls s).

  Lemma step_ignores h s e s' x : stepping s e = Some (s', x) -> ignores h s s'.
  Proof.
    assert (RF : forall s k, ignores h s (fst (remove_handler s k))).
    { intros s0 k L N. destruct (remove_frame s0 k) as (_ & B & C & _). rewrite B, C. split; [exact L|]. split; [|reflexivity].
      unfold remove_handler. destruct (remove_one k (wa_callbacks s0)) as [l|] eqn:Q; [|exact N]. cbn.
      intros I. apply N. eapply remove_one_in; eauto. }
    intros E. destruct e as [e| |k|k|].
    - refine (in_rel (ignores h) _ _ _ _ _ _ _ _ _ E); [ | | | |].
      + intros s0 L N. auto.
      + intros a b c A B L N. destruct (A L N) as (L1 & N1 & Q1). destruct (B L1 N1) as (L2 & N2 & Q2). repeat split; auto. congruence.
      + intros s0 m _ L N. auto.
      + intros s0 m _ L N. auto.
      + intros s0 o s1 y _ P L N. destruct (report_frame _ _ _ _ P) as (_ & _ & B & _ & C). destruct (C h L N) as (C1 & C2).
        repeat split; auto. lia.
    - cbn in E. injection E as <- <-. intros L N. cbn. split; [lia|]. split; [|reflexivity].
      rewrite in_app_iff. intros [I|[I|[]]]; [contradiction|lia].
    - cbn in E. injection E as E. specialize (RF s k). rewrite E in RF. exact RF.
    - cbn in E. injection E as <- <-. apply RF.
    - cbn in E. destruct (wa_open s); injection E as <- <-; intros L N; auto.
  Qed.
  Lemma run_ignores h es : forall s s', running s es = Some s' -> ignores h s s'.
  Proof.
    induction es as [|e es IH]; intros s s' E L N; cbn [wrun] in E; [injection E as <-; auto|].
    destruct (stepping s e) as [[s1 x]|] eqn:P; [|discriminate].
    destruct (step_ignores h _ _ _ _ P L N) as (L1 & N1 & Q1). destruct (IH _ _ E L1 N1) as (L2 & N2 & Q2).
    repeat split; auto. congruence.
  Qed.

  Theorem removed es1 es2 s1 s2 s3 h : running new_watched es1 = Some s1 ->
    stepping s1 (WRemove h) = Some (s2, None) -> running s2 es2 = Some s3 ->
    notices h (wa_calls s3) = notices h (wa_calls s1) /\ ~ In h (wa_callbacks s3).
  Proof.
    intros R1 E R2. pose proof (run_wf _ _ _ R1 new_wf) as (A & B & _). cbn in E. injection E as E.
    unfold remove_handler in E. destruct (remove_one h (wa_callbacks s1)) as [l|x] eqn:Q; [|discriminate]. injection E as <-.
    assert (I : In h (wa_callbacks s1)).
    { clear -Q. revert l Q. induction (wa_callbacks s1) as [|y r IH]; intros l Q; cbn in Q; [discriminate|].
      destruct (Nat.eqb_spec y h) as [->|_]; [left; reflexivity|]. destruct (remove_one h r) eqn:Z; [|discriminate].
      right. eapply IH. reflexivity. }
    destruct (run_ignores h _ _ _ R2) as (_ & N & P).
    - cbn. apply (proj1 (Forall_forall _ _) B). exact I.
    - cbn. exact (proj2 (remove_one_nodup _ _ _ Q A)).
    - split; [exact P|exact N].
  Qed.

  (** With tame handlers the monitor is the plain one. *)
  Definition same (s : watched) (m : monitor) : Prop :=
    mo_registry (wa_monitor s) = mo_registry m /\ mo_log (wa_monitor s) = unraised (mo_log m).

  Lemma unraised_app a b : unraised (a ++ b) = unraised a ++ unraised b.
  Proof. apply filter_app. Qed.
  Lemma dset_twice (d : list (N * entry)) n a b : dset N.eqb (dset N.eqb d n a) n b = dset N.eqb d n b.
  Proof.
    induction d as [|[k v] d IH]; cbn [dset]; [rewrite N.eqb_refl; reflexivity|].
    destruct (n =? k)%N eqn:E; cbn [dset]; rewrite E; [reflexivity|]. rewrite IH. reflexivity.
  Qed.
  Lemma same_say s m o : same s m -> same (with_monitor s (say (wa_monitor s) o)) (say m o) \/ exists x, o = MRaise x.
  Proof.
    intros (A & B). destruct o; try (right; eexists; reflexivity); left; split; cbn; try exact A;
      rewrite B, unraised_app; reflexivity.
  Qed.
  Lemma same_raise s m x : same s m -> same s (say m (MRaise x)).
  Proof. intros (A & B). split; cbn; [exact A|]. rewrite B, unraised_app. cbn. symmetry. apply app_nil_r. Qed.
  Lemma same_put s m n e : same s m -> same (with_monitor s (put (wa_monitor s) n e)) (put m n e).
  Proof. intros (A & B). split; cbn; [rewrite A; reflexivity|exact B]. Qed.
  Lemma same_drop s m n : same s m -> same (with_monitor s (drop (wa_monitor s) n)) (drop m n).
  Proof. intros (A & B). split; cbn; [rewrite A; reflexivity|exact B]. Qed.
  Lemma same_report s m o s' x : tame beh -> wf s -> is_event o = true -> same s m -> reporting s o = Some (s', x) ->
    x = None /\ wf s' /\ wa_open s' = wa_open s /\ same s' (say m o).
  Proof.
    intros T W Q (A & B) P. destruct (tame_report _ _ _ _ T W P) as (-> & _).
    destruct (report_frame _ _ _ _ P) as (C & O & _ & W' & _). split; [reflexivity|]. split; [auto|]. split; [exact O|].
    split; rewrite C; cbn; [exact A|]. rewrite B, unraised_app. destruct o; try discriminate; reflexivity.
  Qed.

  (** Equal to the plain one, and the rest. *)
  Definition good (s : watched) (m : monitor) : Prop := wf s /\ wa_open s = true /\ same s m.

  Lemma good_get s m n now s' r : tame beh -> good s m -> wget timeout beh fuel s n now = Some (s', r) ->
    exists m' f, get timeout m n now = (m', f) /\ good s' m' /\
      match f with Some e => r = Ok e | None => r = Err KeyError end.
  Proof.
    intros T (W & O & Q) E. unfold wget in E. unfold get. destruct Q as (A & B). rewrite A in E.
    destruct (dget N.eqb (mo_registry m) n) as [e|].
    2:{ injection E as <- <-. eexists _, _. split; [reflexivity|]. split; [|reflexivity]. repeat split; auto; apply W. }
    destruct (stale timeout e now).
    2:{ injection E as <- <-. eexists _, _. split; [reflexivity|]. split; [|reflexivity]. repeat split; auto; apply W. }
    destruct (reporting s (MOffline n)) as [[s1 x]|] eqn:P; [|discriminate].
    destruct (same_report s m (MOffline n) s1 x T W eq_refl (conj A B) P) as (-> & W1 & O1 & S1). injection E as <- <-.
    eexists _, _. split; [reflexivity|]. split; [|reflexivity]. split; [exact W1|]. split; [cbn; congruence|].
    apply same_drop. exact S1.
  Qed.

  Lemma good_sweep now l : tame beh -> forall s m s' x, good s m -> sweep timeout beh fuel l s now = Some (s', x) ->
    good s' (fold_left (fun s (r : N * entry) =>
                 if stale timeout (snd r) (now (fst r)) then say (drop s (fst r)) (MOffline (fst r)) else s) l m).
  Proof.
    intros T. induction l as [|[n e] l IH]; intros s m s' x G E; cbn [sweep] in E; cbn [fold_left fst snd].
    { injection E as <- <-. exact G. }
    destruct (stale timeout e (now n)); [|eapply IH; eassumption].
    destruct (reporting _ _) as [[s1 y]|] eqn:P; [|discriminate]. destruct G as (W & O & Q).
    destruct (same_report (with_monitor s (drop (wa_monitor s) n)) (drop m n) (MOffline n) _ _ T W eq_refl (same_drop _ _ n Q) P) as (-> & W1 & O1 & S1).
    eapply IH; [|exact E]. split; [exact W1|]. split; [cbn in O1; congruence|exact S1].
  Qed.

  Lemma good_find s m n now s' r : tame beh -> good s m -> find_entry timeout beh fuel s n now = Some (s', r) ->
    exists m' f, get timeout m n now = (m', f) /\
      match f with
      | Some e => r = Ok (e, false) /\ good s' m'
      | None => r = Ok (new_entry, true) /\ good s' (put m' n new_entry)
      end.
  Proof.
    intros T G E. unfold find_entry in E. destruct (wget timeout beh fuel s n now) as [[s1 r1]|] eqn:P; [|discriminate].
    destruct (good_get _ _ _ _ _ _ T G P) as (m' & f & H & G' & R). exists m', f. split; [exact H|].
    destruct f as [e|]; subst r1; injection E as <- <-; (split; [reflexivity|]); [exact G'|].
    destruct G' as (W & O & Q). split; [exact W|]. split; [exact O|]. apply same_put. exact Q.
  Qed.

  Lemma good_put s m n e : good s m -> good (with_monitor s (put (wa_monitor s) n e)) (put m n e).
  Proof. intros (W & O & Q). split; [exact W|]. split; [exact O|]. apply same_put. exact Q. Qed.
  Lemma good_put2 s m n a b : good s (put m n a) -> good (with_monitor s (put (wa_monitor s) n b)) (put m n b).
  Proof.
    intros G. apply (good_put _ _ n b) in G. destruct G as (W & O & A & B). split; [exact W|]. split; [exact O|].
    split; [|exact B]. rewrite A. cbn. apply dset_twice.
  Qed.

  Lemma good_ask s m n e an s' x : good s m -> ask min_retry s n e an = (s', x) ->
    good s' (if negb (discovered e) && negb an && (min_retry <? en_ts e - en_asked e) then
      match en_retries e with
      | O => say (put m n (Entry (en_uptime e) (en_info e) (en_ts e) O (en_ts e))) (MRaise AssertionError)
      | S r => say (put m n (Entry (en_uptime e) (en_info e) (en_ts e) r (en_ts e))) (MAsk n (en_ts e))
      end else m).
  Proof.
    unfold ask. intros G. destruct (_ && _ && _); [|intros E; injection E as <- <-; exact G].
    destruct (en_retries e) as [|k]; intros E; injection E as <- <-.
    - apply (good_put _ _ n (Entry (en_uptime e) (en_info e) (en_ts e) 0 (en_ts e))) in G. destruct G as (W & O & Q).
      split; [exact W|]. split; [exact O|]. apply same_raise. exact Q.
    - apply (good_put _ _ n (Entry (en_uptime e) (en_info e) (en_ts e) k (en_ts e))) in G. destruct G as (W & O & Q).
      split; [exact W|]. split; [exact O|].
      destruct (same_say _ _ (MAsk n (en_ts e)) Q) as [H|(? & H)]; [exact H|discriminate].
  Qed.

  Lemma good_step s m e s' x : tame beh -> e <> WClose -> good s m -> stepping s e = Some (s', x) ->
    good s' (fold_left (mstep timeout min_retry) (inputs [e]) m).
  Proof.
    intros T N G E. destruct e as [e| |k|k|]; [| | | |congruence]; cbn [inputs flat_map app fold_left].
    2:{ cbn in E. injection E as <- <-. destruct G as (W & O & Q). split; [apply wf_add; exact W|]. split; [exact O|exact Q]. }
    2:{ cbn in E. injection E as E. destruct G as (W & O & Q). pose proof (wf_remove s k W) as W'. rewrite E in W'.
        pose proof (remove_frame s k) as (A & _ & _ & D). rewrite E in A, D. cbn [fst] in *. split; [exact W'|]. split; [congruence|].
        unfold same. rewrite A. exact Q. }
    2:{ cbn in E. injection E as <- <-. destruct G as (W & O & Q). unfold try_remove. split; [apply wf_remove; exact W|].
        pose proof (remove_frame s k) as (A & _ & _ & D). split; [congruence|]. unfold same. rewrite A. exact Q. }
    assert (G0 : good (with_monitor s (say (wa_monitor s) (MIn e))) (say m (MIn e))).
    { destruct G as (W & O & Q). split; [exact W|]. split; [exact O|].
      destruct (same_say _ _ (MIn e) Q) as [H|(? & H)]; [exact H|discriminate]. }
    assert (RE : mo_registry (wa_monitor s) = mo_registry m) by apply G.
    pose proof (proj1 (proj2 G)) as O. cbn [wstep] in E. clear G. unfold mstep.
    set (s0 := with_monitor s (say (wa_monitor s) (MIn e))) in *. set (m0 := say m (MIn e)) in *.
    destruct e as [n up ts now an|n up i ts now text|n ts now|now|n now].
    - rewrite O in E. unfold won_status in E. destruct (find_entry timeout beh fuel s0 n now) as [[s1 r]|] eqn:F; [|discriminate].
      destruct (good_find _ _ _ _ _ _ T G0 F) as (m1 & f & H & R). unfold on_status. rewrite H.
      destruct f as [e|]; destruct R as (-> & G1).
      + injection E as E. eapply good_ask; [|exact E]. apply good_put. exact G1.
      + apply (good_put2 _ _ n _ (update_from_status new_entry up ts)) in G1.
        destruct (reporting _ _) as [[s2 y]|] eqn:P; [|discriminate]. destruct G1 as (W1 & O1 & Q1).
        destruct (same_report _ _ (MNew n) _ _ T W1 eq_refl Q1 P) as (-> & W2 & O2 & Q2). injection E as E.
        eapply good_ask; [|exact E]. split; [exact W2|]. split; [congruence|exact Q2].
    - unfold won_info in E. destruct (find_entry timeout beh fuel s0 n now) as [[s1 r]|] eqn:F; [|discriminate].
      destruct (good_find _ _ _ _ _ _ T G0 F) as (m1 & f & H & R). unfold on_info. rewrite H.
      assert (G2 : forall e, (f = Some e \/ f = None /\ e = new_entry) -> exists b, r = Ok (e, b) /\
        good (with_monitor s1 (put (wa_monitor s1) n (update_from_info e up i ts))) (put m1 n (update_from_info e up i ts))).
      { intros e [->|(-> & ->)]; destruct R as (-> & G1); eexists; (split; [reflexivity|]); [apply good_put; exact G1|].
        eapply good_put2. exact G1. }
      set (e := match f with Some e => e | None => new_entry end).
      destruct (G2 e) as (b & -> & G3). { subst e. destruct f; auto. }
      destruct text.
      + destruct G3 as (W1 & O1 & Q1). destruct (same_report _ _ (MUpdate n) _ _ T W1 eq_refl Q1 E) as (-> & W2 & O2 & Q2).
        split; [exact W2|]. split; [congruence|exact Q2].
      + injection E as <- <-. destruct G3 as (W1 & O1 & Q1). split; [exact W1|]. split; [exact O1|]. apply same_raise. exact Q1.
    - unfold won_request in E. destruct (find_entry timeout beh fuel s0 n now) as [[s1 r]|] eqn:F; [|discriminate].
      destruct (good_find _ _ _ _ _ _ T G0 F) as (m1 & f & H & R). unfold on_request. rewrite H.
      destruct f as [e|]; destruct R as (-> & G1); injection E as <- <-.
      + apply (good_put _ _ n (Entry (en_uptime e) (en_info e) ts max_retries (en_asked e))) in G1.
        destruct G1 as (W1 & O1 & Q1). split; [exact W1|]. split; [exact O1|]. apply same_raise. exact Q1.
      + apply (good_put2 _ _ n _ (Entry (en_uptime new_entry) (en_info new_entry) ts max_retries (en_asked new_entry))) in G1.
        destruct G1 as (W1 & O1 & Q1). split; [exact W1|]. split; [exact O1|]. apply same_raise. exact Q1.
    - rewrite O in E. rewrite RE in E. exact (good_sweep now _ T _ _ _ _ G0 E).
    - destruct (wget timeout beh fuel s0 n now) as [[s1 r]|] eqn:F; [|discriminate].
      destruct (good_get _ _ _ _ _ _ T G0 F) as (m1 & f & H & G1 & R). rewrite H.
      destruct f; subst r; injection E as <- <-; exact G1.
  Qed.

  Theorem plain es s : tame beh -> ~ In WClose es -> running new_watched es = Some s ->
    let m := monitored timeout min_retry (inputs es) in
    mo_registry (wa_monitor s) = mo_registry m /\ mo_log (wa_monitor s) = unraised (mo_log m).
  Proof.
    intros T. cbv zeta. unfold monitored.
    enough (H : forall es s0 m0 s, ~ In WClose es -> good s0 m0 -> running s0 es = Some s ->
              good s (fold_left (mstep timeout min_retry) (inputs es) m0)).
    { intros N E. refine (proj2 (proj2 (H es new_watched _ s N _ E))).
      split; [apply new_wf|]. split; [reflexivity|]. split; reflexivity. }
    clear es s. induction es as [|e es IH]; intros s0 m0 s N G E; cbn [wrun] in E; [injection E as <-; exact G|].
    destruct (stepping s0 e) as [[s1 x]|] eqn:P; [|discriminate].
    change (inputs (e :: es)) with (inputs ([e] ++ es)). unfold inputs. rewrite flat_map_app, fold_left_app.
    eapply IH; [|eapply good_step; [exact T| |exact G|exact P]|exact E].
    - intros I. apply N. right. exact I.
    - intros ->. apply N. left. reflexivity.
  Qed.

  (** A closed monitor rests. *)
  Theorem closed es1 es2 s1 s2 x s3 : running new_watched es1 = Some s1 -> stepping s1 WClose = Some (s2, x) ->
    undisturbed es2 -> running s2 es2 = Some s3 ->
    wa_monitor s3 = wa_monitor s1 /\ wa_calls s3 = wa_calls s1.
  Proof.
    intros _ E U R. assert (C : wa_open s2 = false /\ wa_monitor s2 = wa_monitor s1 /\ wa_calls s2 = wa_calls s1).
    { cbn in E. destruct (wa_open s1) eqn:O; injection E as <- <-; repeat split. exact O. }
    destruct C as (O & <- & <-). clear E s1 es1 x. revert s2 O R. induction es2 as [|e es IH]; intros s O R; cbn [wrun] in R.
    { injection R as <-. split; reflexivity. }
    destruct (stepping s e) as [[s1 x]|] eqn:P; [|discriminate].
    assert (C : wa_open s1 = false /\ wa_monitor s1 = wa_monitor s /\ wa_calls s1 = wa_calls s).
    { pose proof (U e (or_introl eq_refl)) as Ue.
      destruct e as [[n up ts now an|n up i ts now text|n ts now|now|n now]| |k|k|]; try contradiction; cbn [wstep] in P.
      - rewrite O in P. injection P as <- <-. auto.
      - rewrite O in P. injection P as <- <-. auto.
      - injection P as <- <-. auto.
      - pose proof (remove_frame s k) as (A & _ & B & D). injection P as P. rewrite P in A, B, D. cbn [fst] in *. rewrite A, B, D. auto.
      - pose proof (remove_frame s k) as (A & _ & B & D). injection P as <- <-. unfold try_remove. rewrite A, B, D. auto.
      - rewrite O in P. injection P as <- <-. auto. }
    destruct C as (O1 & A1 & B1). destruct (IH (fun e I => U e (or_intror I)) s1 O1 R) as (A2 & B2). split; congruence.
  Qed.

  (** Calls end unless handlers add handlers. *)
  Definition within (k : nat) (s : watched) : Prop := (length (wa_callbacks s) <= k)%nat.

  Lemma ops_within ops : (~ In WHAdd ops) -> forall s s' x k, apply_ops s ops = (s', x) -> within k s -> within k s'.
  Proof.
    intros N. induction ops as [|[|h] ops IH]; intros s s' x k E L; cbn [apply_ops] in E; [injection E as <- <-; exact L| |].
    - exfalso. apply N. left. reflexivity.
    - assert (L1 : within k (fst (remove_handler s h))).
      { unfold remove_handler, within. destruct (remove_one h (wa_callbacks s)) as [l|] eqn:Q; [|exact L]. cbn.
        pose proof (remove_one_length _ _ _ Q). unfold within in L. lia. }
      destruct (remove_handler s h) as [s1 [y|]]; cbn [fst] in L1; [injection E as <- <-; exact L1|].
      eapply IH; [intros I; apply N; right; exact I|exact E|exact L1].
  Qed.
  Lemma calls_end n : adds_none beh -> forall s i o k, within k s -> (k < n + i)%nat -> (1 <= n)%nat ->
    exists s' x, call_handlers beh n s i o = Some (s', x) /\ within k s'.
  Proof.
    intros A. induction n as [|n IH]; intros s i o k L N P; [lia|]. cbn [call_handlers].
    destruct (nth_error (wa_callbacks s) i) as [h|] eqn:K; [|eexists _, _; split; [reflexivity|exact L]].
    assert (I : (i < length (wa_callbacks s))%nat) by (apply nth_error_Some; congruence). unfold within in L.
    pose proof (A (wa_calls (with_call s (h, o)))) as NA.
    destruct (beh (wa_calls (with_call s (h, o)))) as [ops y]. cbn [fst] in NA.
    destruct (apply_ops (with_call s (h, o)) ops) as [s1 z] eqn:O.
    pose proof (ops_within _ NA _ _ _ k O L) as L1.
    destruct z as [z|]; [eexists _, _; split; [reflexivity|exact L1]|].
    destruct y as [y|]; [eexists _, _; split; [reflexivity|exact L1]|].
    apply IH; [exact L1|lia|lia].
  Qed.

  Lemma report_ends s o k : adds_none beh -> within k s -> (k < fuel)%nat ->
    exists s' x, reporting s o = Some (s', x) /\ within k s'.
  Proof. intros A L F. unfold report. apply calls_end; [exact A|exact L|lia|lia]. Qed.

  Lemma get_ends s n now k : adds_none beh -> within k s -> (k < fuel)%nat ->
    exists s' r, wget timeout beh fuel s n now = Some (s', r) /\ within k s'.
  Proof.
    intros A L F. unfold wget. destruct (dget N.eqb _ n) as [e|]; [|eexists _, _; split; [reflexivity|exact L]].
    destruct (stale timeout e now); [|eexists _, _; split; [reflexivity|exact L]].
    destruct (report_ends s (MOffline n) k A L F) as (s' & x & -> & L').
    destruct x; eexists _, _; (split; [reflexivity|exact L']).
  Qed.
  Lemma find_ends s n now k : adds_none beh -> within k s -> (k < fuel)%nat ->
    exists s' r, find_entry timeout beh fuel s n now = Some (s', r) /\ within k s'.
  Proof.
    intros A L F. unfold find_entry. destruct (get_ends s n now k A L F) as (s' & r & -> & L').
    destruct r as [e|[]]; eexists _, _; (split; [reflexivity|exact L']).
  Qed.
  Lemma ask_within s n e an k : within k s -> within k (fst (ask min_retry s n e an)).
  Proof. unfold ask. intros L. destruct (_ && _ && _); [|exact L]. destruct (en_retries e); exact L. Qed.
  Lemma sweep_ends now k l : adds_none beh -> (k < fuel)%nat -> forall s, within k s ->
    exists s' x, sweep timeout beh fuel l s now = Some (s', x) /\ within k s'.
  Proof.
    intros A F. induction l as [|[n e] l IH]; intros s L; cbn [sweep]; [eexists _, _; split; [reflexivity|exact L]|].
    destruct (stale timeout e (now n)); [|apply IH; exact L].
    destruct (report_ends (with_monitor s (drop (wa_monitor s) n)) (MOffline n) k A L F) as (s' & x & -> & L').
    destruct x; [eexists _, _; split; [reflexivity|exact L']|]. apply IH. exact L'.
  Qed.

  Lemma step_ends s e k : adds_none beh -> within k s -> (k < fuel)%nat ->
    exists s' x, stepping s e = Some (s', x) /\ within (if is_add e then S k else k) s'.
  Proof.
    intros A L F. destruct e as [e| |h|h|]; cbn [is_add wstep].
    - set (s0 := with_monitor s (say (wa_monitor s) (MIn e))). assert (L0 : within k s0) by exact L.
      destruct e as [n up ts now an|n up i ts now text|n ts now|now|n now].
      + destruct (wa_open s); [|eexists _, _; split; [reflexivity|exact L]]. unfold won_status.
        destruct (find_ends s0 n now k A L0 F) as (s1 & r & -> & L1).
        destruct r as [[e b]|x]; [|eexists _, _; split; [reflexivity|exact L1]].
        set (s2 := with_monitor s1 (put (wa_monitor s1) n (update_from_status e up ts))). assert (L2 : within k s2) by exact L1.
        destruct b.
        * destruct (report_ends s2 (MNew n) k A L2 F) as (s3 & x & -> & L3).
          destruct x; [eexists _, _; split; [reflexivity|exact L3]|].
          pose proof (ask_within s3 n (update_from_status e up ts) an k L3) as L4.
          destruct (ask min_retry s3 n _ an) as [s4 x]. eexists _, _. split; [reflexivity|exact L4].
        * pose proof (ask_within s2 n (update_from_status e up ts) an k L2) as L4.
          destruct (ask min_retry s2 n _ an) as [s4 x]. eexists _, _. split; [reflexivity|exact L4].
      + unfold won_info. destruct (find_ends s0 n now k A L0 F) as (s1 & r & -> & L1).
        destruct r as [[e b]|x]; [|eexists _, _; split; [reflexivity|exact L1]].
        destruct text; [|eexists _, _; split; [reflexivity|exact L1]]. apply report_ends; [exact A|exact L1|exact F].
      + unfold won_request. destruct (find_ends s0 n now k A L0 F) as (s1 & r & -> & L1).
        destruct r as [[e b]|x]; eexists _, _; (split; [reflexivity|exact L1]).
      + destruct (wa_open s); [|eexists _, _; split; [reflexivity|exact L]]. apply sweep_ends; [exact A|exact F|exact L0].
      + destruct (get_ends s0 n now k A L0 F) as (s1 & r & -> & L1). destruct r; eexists _, _; (split; [reflexivity|exact L1]).
    - eexists _, _. split; [reflexivity|]. unfold within, add_handler. cbn [wa_callbacks with_callbacks]. rewrite app_length. cbn [length].
      unfold within in L. lia.
    - assert (L1 : within k (fst (remove_handler s h))).
      { unfold remove_handler, within. destruct (remove_one h (wa_callbacks s)) as [l|] eqn:Q; [|exact L]. cbn [fst].
        pose proof (remove_one_length _ _ _ Q). unfold within in L. cbn [wa_callbacks with_callbacks]. lia. }
      destruct (remove_handler s h) as [s1 x]. eexists _, _. split; [reflexivity|exact L1].
    - eexists _, _. split; [reflexivity|]. unfold try_remove, remove_handler, within.
      destruct (remove_one h (wa_callbacks s)) as [l|] eqn:Q; [|exact L]. cbn [fst].
      pose proof (remove_one_length _ _ _ Q). unfold within in L. cbn [wa_callbacks with_callbacks]. lia.
    - destruct (wa_open s); eexists _, _; (split; [reflexivity|exact L]).
  Qed.

  Theorem run_ends es : adds_none beh -> (length (filter is_add es) < fuel)%nat ->
    exists s, running new_watched es = Some s.
  Proof.
    intros A. enough (H : forall es s k, within k s -> (k + length (filter is_add es) < fuel)%nat -> exists s', running s es = Some s').
    { intros F. apply (H es new_watched 0%nat); [unfold within; cbn; lia|exact F]. }
    clear es. induction es as [|e es IH]; intros s k L F; cbn [wrun]; [eexists; reflexivity|]. cbn [filter] in F.
    destruct (step_ends s e k A L) as (s1 & x & -> & L1); [lia|].
    destruct (is_add e); [apply (IH s1 (S k)); [exact L1|cbn [length] in F; lia]|apply (IH s1 k); [exact L1|exact F]].
  Qed.

  Lemma events_unraised l : events (unraised l) = events l.
  Proof.
    unfold events, unraised. induction l as [|o l IH]; [reflexivity|]. destruct o; cbn [filter is_event]; rewrite IH; reflexivity.
  Qed.

  Theorem whole_story es s : tame beh -> ~ In WClose es -> ~ In (WRemove 0) es -> ~ In (WTryRemove 0) es ->
    running new_watched (WAdd :: es) = Some s ->
    notices 0 (wa_calls s) = events (mo_log (monitored timeout min_retry (inputs es))).
  Proof.
    intros T C N1 N2 R.
    destruct (told [] es new_watched s T eq_refl N1 N2 R) as (l & L & Q).
    cbn in L, Q. subst l. rewrite Q.
    destruct (plain (WAdd :: es) s T) as (_ & ->); [|exact R|].
    - intros [I|I]; [discriminate|contradiction].
    - rewrite events_unraised. reflexivity.
  Qed.
End Facts.

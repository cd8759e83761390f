From Verif.Base Require Import Prelude.
From Verif.Model Require Import CanFrame Bridge.
From Verif.Spec Require Import BridgeSpec.

Lemma received_app i a b : received i (a ++ b) = received i a ++ received i b.
Proof. apply flat_map_app. Qed.
Lemma forwarded_app i j a b : forwarded i j (a ++ b) = forwarded i j a ++ forwarded i j b.
Proof. apply flat_map_app. Qed.

Lemma set_thread_length l i t : length (set_thread l i t) = length l.
Proof. revert i. induction l; intros [|i]; cbn; auto. Qed.
Lemma set_thread_same l i t : i < length l -> nth_error (set_thread l i t) i = Some t.
Proof. revert i. induction l; intros [|i] H; cbn in *; try lia; auto. apply IHl; lia. Qed.
Lemma set_thread_other l i k t : i <> k -> nth_error (set_thread l i t) k = nth_error l k.
Proof. revert i k. induction l; intros [|i] [|k] H; cbn; auto; try congruence. Qed.

Section Facts.
  Variables (ids : option (list N)) (n : nat).
  Notation passes := (passes ids).
  Notation step := (step ids n).

  Lemma passes_wanted f : passes f = true <-> wanted ids f.
  Proof.
    unfold Bridge.passes, wanted. destruct ids as [l|]; [|tauto].
    assert (E : N.land (c_id f) 127 = (c_id f mod 128)%N)
      by (change 127%N with (N.ones 7); rewrite N.land_ones; reflexivity).
    rewrite E, existsb_exists. split.
    - intros (x & Hx & Ex). apply N.eqb_eq in Ex. subst. exact Hx.
    - intros H. exists (c_id f mod 128)%N. split; [exact H|apply N.eqb_refl].
  Qed.

  Lemma selects_filter l : selects (wanted ids) l (filter passes l).
  Proof.
    induction l as [|x l IH]; cbn; [constructor|].
    destruct (passes x) eqn:E.
    - apply sel_keep; [apply passes_wanted; exact E|exact IH].
    - apply sel_drop; [|exact IH]. intro H. apply passes_wanted in H. congruence.
  Qed.

  (** What thread [i] has still to hand to driver [j]. *)
  Definition due (i j : nat) (t : thread) : list cframe :=
    match th_pc t with
    | Sending f l => if negb (Nat.eqb i j) && existsb (Nat.eqb j) l then [f] else []
    | _ => []
    end.

  (** Invariant for thread [i]. *)
  Definition inv (i : nat) (b : bridge) : Prop :=
    forall t, nth_error (b_threads b) i = Some t ->
      (forall f l, th_pc t = Sending f l -> NoDup l) /\
      (th_pc t <> Ended -> forall j, i <> j -> j < n ->
         forwarded i j (b_log b) ++ due i j t = filter passes (received i (b_log b))) /\
      forall j, i <> j -> j < n ->
        exists rest, filter passes (received i (b_log b)) = forwarded i j (b_log b) ++ rest /\ length rest <= 1.

  Lemma rx_one i i' f : received i [Received i' f] = if Nat.eqb i' i then [f] else [].
  Proof. cbn. destruct (Nat.eqb i' i); reflexivity. Qed.
  Lemma tx_one i j i' j' f d : forwarded i j [Sent i' j' f d] = if Nat.eqb i' i && Nat.eqb j' j then [f] else [].
  Proof. cbn. destruct (Nat.eqb i' i && Nat.eqb j' j); reflexivity. Qed.
  Lemma rx_tx i i' j' f d : received i [Sent i' j' f d] = [].
  Proof. reflexivity. Qed.
  Lemma tx_rx i j i' f : forwarded i j [Received i' f] = [].
  Proof. reflexivity. Qed.

  Lemma existsb_self_nat j l : existsb (Nat.eqb j) l = true <-> In j l.
  Proof.
    rewrite existsb_exists. split.
    - intros (x & Hx & E). apply Nat.eqb_eq in E. subst. exact Hx.
    - intros H. exists j. split; [exact H|apply Nat.eqb_refl].
  Qed.

  Lemma inv_step i b i' r d : inv i b -> inv i (step b i' r d).
  Proof.
    intros Hi. unfold Bridge.step. destruct (nth_error (b_threads b) i') as [t'|] eqn:Et; [|exact Hi].
    assert (Hlen : i' < length (b_threads b)) by (apply nth_error_Some; congruence).
    destruct (Nat.eq_dec i' i) as [->|Hne].
    - destruct (Hi t' Et) as (Hnd & Heq & Hpre).
      destruct (th_pc t') as [|f l|] eqn:Epc.
      + specialize (Heq ltac:(discriminate)).
        assert (Heq' : forall j, i <> j -> j < n ->
                  forwarded i j (b_log b) = filter passes (received i (b_log b))).
        { intros j Hij Hj. rewrite <- (Heq j Hij Hj). unfold due. rewrite Epc, app_nil_r. reflexivity. }
        destruct r as [f| |e].
        * destruct (passes f) eqn:Ep.
          -- intros t. cbn [b_threads b_log]. rewrite set_thread_same by exact Hlen. intros [= <-].
             cbn [th_pc]. split; [intros f' l' [= <- <-]; apply seq_NoDup|].
             assert (Hf : forall j, forwarded i j (b_log b ++ [Received i f]) = forwarded i j (b_log b))
               by (intros j; rewrite forwarded_app, tx_rx, app_nil_r; reflexivity).
             assert (Hr : filter passes (received i (b_log b ++ [Received i f])) =
                          filter passes (received i (b_log b)) ++ [f]).
             { rewrite received_app, rx_one, Nat.eqb_refl, filter_app. cbn. rewrite Ep. reflexivity. }
             split.
             ++ intros _ j Hij Hj. rewrite Hf, Hr, (Heq' j Hij Hj). f_equal.
                unfold due. cbn [th_pc]. apply Nat.eqb_neq in Hij as Hb. rewrite Hb.
                assert (existsb (Nat.eqb j) (seq 0 n) = true) as -> by (apply existsb_self_nat, in_seq; lia).
                reflexivity.
             ++ intros j Hij Hj. exists [f]. rewrite Hf, Hr, (Heq' j Hij Hj). split; [reflexivity|cbn; lia].
          -- intros t. cbn [b_threads b_log]. rewrite Et. intros [= <-].
             assert (Hf : forall j, forwarded i j (b_log b ++ [Received i f]) = forwarded i j (b_log b))
               by (intros j; rewrite forwarded_app, tx_rx, app_nil_r; reflexivity).
             assert (Hr : filter passes (received i (b_log b ++ [Received i f])) =
                          filter passes (received i (b_log b))).
             { rewrite received_app, rx_one, Nat.eqb_refl, filter_app. cbn. rewrite Ep. apply app_nil_r. }
             rewrite Hr. split; [rewrite Epc; discriminate|]. split.
             ++ intros _ j Hij Hj. rewrite Hf, (Heq' j Hij Hj). unfold due. rewrite Epc. apply app_nil_r.
             ++ intros j Hij Hj. rewrite Hf. apply Hpre; assumption.
        * exact Hi.
        * intros t. cbn [b_threads b_log]. rewrite set_thread_same by exact Hlen. intros [= <-].
          cbn [th_pc]. split; [discriminate|]. split; [congruence|exact Hpre].
      + specialize (Hnd f l eq_refl). destruct l as [|j0 l].
        * intros t. cbn [b_threads b_log]. rewrite set_thread_same by exact Hlen. intros [= <-].
          cbn [th_pc]. split; [discriminate|]. split; [|exact Hpre].
          intros _ j Hij Hj. rewrite <- (Heq ltac:(discriminate) j Hij Hj). f_equal.
          unfold due. cbn [th_pc]. rewrite Epc. cbn. rewrite andb_false_r. reflexivity.
        * apply NoDup_cons_iff in Hnd as (Hnin & Hnd).
          destruct (Nat.eqb j0 i) eqn:Ej.
          -- apply Nat.eqb_eq in Ej. subst j0.
             intros t. cbn [b_threads b_log]. rewrite set_thread_same by exact Hlen. intros [= <-].
             cbn [th_pc]. split; [intros f' l' [= <- <-]; exact Hnd|]. split; [|exact Hpre].
             intros _ j Hij Hj. rewrite <- (Heq ltac:(discriminate) j Hij Hj). f_equal.
             unfold due. cbn [th_pc]. rewrite Epc. cbn [existsb].
             replace (Nat.eqb j i) with false by (symmetry; apply Nat.eqb_neq; congruence). reflexivity.
          -- apply Nat.eqb_neq in Ej.
             intros t. cbn [b_threads b_log]. rewrite set_thread_same by exact Hlen. intros [= <-].
             cbn [th_pc].
             assert (Hr : received i (b_log b ++ [Sent i j0 f d]) = received i (b_log b))
               by (rewrite received_app, rx_tx, app_nil_r; reflexivity).
             assert (Hf : forall j, forwarded i j (b_log b ++ [Sent i j0 f d]) =
                                    forwarded i j (b_log b) ++ if Nat.eqb j0 j then [f] else []).
             { intros j. rewrite forwarded_app, tx_one, Nat.eqb_refl. reflexivity. }
             specialize (Heq ltac:(discriminate)). rewrite Hr.
             assert (Heq2 : forall j, i <> j -> j < n ->
                       forwarded i j (b_log b ++ [Sent i j0 f d]) ++ due i j (Thread (Sending f l) (th_count t')) =
                       filter passes (received i (b_log b))).
             { intros j Hij Hj. rewrite Hf, <- (Heq j Hij Hj), <- app_assoc. f_equal.
               unfold due. cbn [th_pc]. rewrite Epc. cbn [existsb].
               apply Nat.eqb_neq in Hij as Hb. rewrite Hb. cbn [negb andb].
               rewrite (Nat.eqb_sym j j0). destruct (Nat.eqb j0 j) eqn:E0; [|reflexivity].
               apply Nat.eqb_eq in E0. subst j0. cbn [orb].
               assert (existsb (Nat.eqb j) l = false) as ->; [|reflexivity].
               apply not_true_is_false. rewrite existsb_self_nat. exact Hnin. }
             split; [destruct d; intros f' l' [= <- <-]; exact Hnd|]. split.
             ++ intros Hpc j Hij Hj. specialize (Heq2 j Hij Hj).
                destruct d; try exact Heq2. congruence.
             ++ intros j Hij Hj. eexists. split; [symmetry; apply (Heq2 j Hij Hj)|].
                unfold due. cbn [th_pc]. destruct (negb (Nat.eqb i j) && existsb (Nat.eqb j) l); cbn; lia.
      + exact Hi.
    - assert (Hsame : forall p c ev,
                 (forall j, forwarded i j ev = []) -> received i ev = [] ->
                 inv i (Bridge (set_thread (b_threads b) i' (Thread p c)) (b_log b ++ ev))).
      { intros p c ev Hf Hr t. cbn [b_threads b_log]. rewrite set_thread_other by exact Hne. intros Ht.
        destruct (Hi t Ht) as (A & B & C). rewrite received_app, Hr, app_nil_r.
        split; [exact A|]. split.
        - intros Hpc j Hij Hj. rewrite forwarded_app, Hf, app_nil_r. exact (B Hpc j Hij Hj).
        - intros j Hij Hj. rewrite forwarded_app, Hf, app_nil_r. exact (C j Hij Hj). }
      assert (Hkeep : forall ev,
                 (forall j, forwarded i j ev = []) -> received i ev = [] ->
                 inv i (Bridge (b_threads b) (b_log b ++ ev))).
      { intros ev Hf Hr t. cbn [b_threads b_log]. intros Ht.
        destruct (Hi t Ht) as (A & B & C). rewrite received_app, Hr, app_nil_r.
        split; [exact A|]. split.
        - intros Hpc j Hij Hj. rewrite forwarded_app, Hf, app_nil_r. exact (B Hpc j Hij Hj).
        - intros j Hij Hj. rewrite forwarded_app, Hf, app_nil_r. exact (C j Hij Hj). }
      assert (Hsame0 : forall p c, inv i (Bridge (set_thread (b_threads b) i' (Thread p c)) (b_log b))).
      { intros p c. rewrite <- (app_nil_r (b_log b)). apply Hsame; reflexivity. }
      apply Nat.eqb_neq in Hne as Hb.
      destruct (th_pc t') as [|f l|]; [| |exact Hi].
      + destruct r as [f| |e]; [|exact Hi|apply Hsame0].
        destruct (passes f).
        * apply Hsame; [reflexivity|]. rewrite rx_one, Hb. reflexivity.
        * apply Hkeep; [reflexivity|]. rewrite rx_one, Hb. reflexivity.
      + destruct l as [|j0 l]; [apply Hsame0|]. destruct (Nat.eqb j0 i'); [apply Hsame0|].
        apply Hsame; [|reflexivity]. intros j. rewrite tx_one, Hb. reflexivity.
  Qed.

  Lemma inv_start i : inv i (start n).
  Proof.
    intros t Ht. unfold start in *. cbn in *.
    apply nth_error_In, repeat_spec in Ht. subst t. cbn.
    split; [discriminate|]. split; [reflexivity|]. intros j _ _. exists []. split; [reflexivity|cbn; lia].
  Qed.

  Lemma inv_run i b steps : inv i b -> inv i (run ids n b steps).
  Proof. revert b. induction steps as [|((i' & r) & d) steps IH]; intros b H; cbn; [exact H|apply IH, inv_step, H]. Qed.

  Lemma step_threads b i r d : length (b_threads (step b i r d)) = length (b_threads b).
  Proof.
    unfold Bridge.step. destruct (nth_error (b_threads b) i) as [t|]; [|reflexivity].
    destruct (th_pc t) as [|f [|j l]|]; [|cbn; apply set_thread_length| |reflexivity].
    - destruct r as [f| |e]; [|reflexivity|cbn; apply set_thread_length].
      destruct (passes f); [cbn; apply set_thread_length|reflexivity].
    - destruct (Nat.eqb j i); cbn; apply set_thread_length.
  Qed.
  Lemma run_threads b steps : length (b_threads (run ids n b steps)) = length (b_threads b).
  Proof. revert b. induction steps as [|((i & r) & d) s IH]; intros b; cbn; [reflexivity|rewrite IH; apply step_threads]. Qed.

  (** At any time everything but possibly the last frame was handed on, once
      and in order. *)
  Lemma forwarded_prefix i j steps : i < n -> j < n -> i <> j ->
    exists all rest,
      selects (wanted ids) (received i (b_log (run ids n (start n) steps))) all /\
      all = forwarded i j (b_log (run ids n (start n) steps)) ++ rest /\ length rest <= 1.
  Proof.
    intros Hi Hj Hne. pose proof (inv_run i (start n) steps (inv_start i)) as H.
    set (b := run ids n (start n) steps) in *.
    assert (Hl : i < length (b_threads b)) by (unfold b; rewrite run_threads; cbn; rewrite repeat_length; exact Hi).
    destruct (nth_error (b_threads b) i) as [t|] eqn:Et; [|apply nth_error_None in Et; lia].
    destruct (H t Et) as (_ & _ & Hp). destruct (Hp j Hne Hj) as (rest & E & Hr).
    exists (filter passes (received i (b_log b))), rest. split; [apply selects_filter|auto].
  Qed.

  Lemma forwarded_idle i j steps : j < n -> i <> j ->
    idle i (run ids n (start n) steps) ->
    selects (wanted ids) (received i (b_log (run ids n (start n) steps)))
                         (forwarded i j (b_log (run ids n (start n) steps))).
  Proof.
    intros Hj Hne (t & Et & Epc). pose proof (inv_run i (start n) steps (inv_start i)) as H.
    destruct (H t Et) as (_ & He & _). specialize (He ltac:(congruence) j Hne Hj).
    unfold due in He. rewrite Epc, app_nil_r in He. rewrite He. apply selects_filter.
  Qed.

  (** Nothing goes back. *)
  Definition no_echo (b : bridge) : Prop := forall i, forwarded i i (b_log b) = [].
  Lemma no_echo_step b i r d : no_echo b -> no_echo (step b i r d).
  Proof.
    intros H. unfold Bridge.step. destruct (nth_error (b_threads b) i) as [t|]; [|exact H].
    destruct (th_pc t) as [|f [|j l]|]; [|exact H| |exact H].
    - destruct r as [f| |e]; [|exact H|exact H].
      destruct (passes f); intros k; cbn [b_log]; rewrite forwarded_app, tx_rx, app_nil_r; apply H.
    - destruct (Nat.eqb j i) eqn:E; [exact H|]. intros k. cbn [b_log]. rewrite forwarded_app, tx_one, (H k).
      apply Nat.eqb_neq in E. destruct (Nat.eqb i k) eqn:E1; [|reflexivity].
      destruct (Nat.eqb j k) eqn:E2; [|reflexivity]. apply Nat.eqb_eq in E1, E2. congruence.
  Qed.
  Lemma no_echo_run steps i : forwarded i i (b_log (run ids n (start n) steps)) = [].
  Proof.
    assert (G : forall b, no_echo b -> no_echo (run ids n b steps)); [|apply G; intros k; reflexivity].
    induction steps as [|((k & r) & d) s IH]; intros b H; cbn; [exact H|apply IH, no_echo_step, H].
  Qed.

  (** A thread only stops at an exception. *)
  Definition alive (i : nat) (b : bridge) : Prop :=
    forall t, nth_error (b_threads b) i = Some t -> th_pc t <> Ended.
  Lemma alive_step i b i' r d :
    (i' = i -> (forall e, r <> RError e) /\ (forall e, d <> Failed e)) ->
    alive i b -> alive i (step b i' r d).
  Proof.
    intros Hd H. unfold Bridge.step. destruct (nth_error (b_threads b) i') as [t'|] eqn:Et; [|exact H].
    assert (Hlen : i' < length (b_threads b)) by (apply nth_error_Some; congruence).
    assert (G : forall p c log, (i' = i -> p <> Ended) ->
                alive i (Bridge (set_thread (b_threads b) i' (Thread p c)) log)).
    { intros p c log Hp t. cbn [b_threads]. destruct (Nat.eq_dec i' i) as [->|Hne].
      - rewrite set_thread_same by exact Hlen. intros [= <-]. apply Hp. reflexivity.
      - rewrite set_thread_other by exact Hne. apply H. }
    destruct (th_pc t') as [|f [|j l]|]; [|apply G; discriminate| |exact H].
    - destruct r as [f| |e]; [|exact H|].
      + destruct (passes f); [apply G; discriminate|exact H].
      + apply G. intros E. destruct (Hd E) as (A & _). exfalso. exact (A e eq_refl).
    - destruct (Nat.eqb j i'); [apply G; discriminate|]. apply G. intros E. destruct (Hd E) as (_ & B).
      destruct d; try discriminate. exfalso. exact (B e eq_refl).
  Qed.
  Lemma alive_run i steps b : undisturbed i steps -> alive i b -> alive i (run ids n b steps).
  Proof.
    revert b. induction steps as [|((k & r) & d) s IH]; intros b Hu H; cbn; [exact H|].
    apply IH; [intros r' d' Hin; apply Hu; right; exact Hin|].
    apply alive_step; [|exact H]. intros ->. apply Hu. left. reflexivity.
  Qed.

  (** An undisturbed thread needs at most [S (length l)] further steps of its
      own to hand on what it has. *)
  Lemma finishes i : forall l b f c,
    nth_error (b_threads b) i = Some (Thread (Sending f l) c) ->
    idle i (run ids n b (repeat (i, RNone, Taken) (S (length l)))).
  Proof.
    induction l as [|j l IH]; intros b f c Ht;
      assert (Hlen : i < length (b_threads b)) by (apply nth_error_Some; congruence);
      change (repeat (i, RNone, Taken) (S ?k)) with ((i, RNone, Taken) :: repeat (i, RNone, Taken) k);
      cbn [run].
    - cbn [repeat length run]. unfold Bridge.step. rewrite Ht. cbn [th_pc].
      eexists. cbn [b_threads]. split; [apply set_thread_same; exact Hlen|reflexivity].
    - cbn [length]. assert (exists c', nth_error (b_threads (step b i RNone Taken)) i = Some (Thread (Sending f l) c')) as (c' & E).
      { unfold Bridge.step. rewrite Ht. cbn [th_pc].
        destruct (Nat.eqb j i); cbn [b_threads]; rewrite set_thread_same by exact Hlen; eauto. }
      exact (IH _ f c' E).
  Qed.

  Lemma finishes_always i steps : i < n -> undisturbed i steps ->
    exists k, idle i (run ids n (start n) (steps ++ repeat (i, RNone, Taken) k)).
  Proof.
    intros Hi Hu. set (b := run ids n (start n) steps).
    assert (Hrun : forall s1 s2 x, run ids n x (s1 ++ s2) = run ids n (run ids n x s1) s2).
    { induction s1 as [|((a & r) & d) s1 IH]; intros s2 x; cbn; [reflexivity|apply IH]. }
    assert (Ha : alive i b).
    { apply alive_run; [exact Hu|]. intros t Ht. cbn in Ht. apply nth_error_In, repeat_spec in Ht. subst. discriminate. }
    assert (Hl : i < length (b_threads b)) by (unfold b; rewrite run_threads; cbn; rewrite repeat_length; exact Hi).
    destruct (nth_error (b_threads b) i) as [[p c]|] eqn:Et; [|apply nth_error_None in Et; lia].
    destruct p as [|f l|].
    - exists 0. cbn [repeat]. rewrite app_nil_r. exists (Thread Top c). split; [exact Et|reflexivity].
    - exists (S (length l)). rewrite Hrun. apply (finishes i l _ f c Et).
    - exfalso. exact (Ha _ Et eq_refl).
  Qed.

  (** A thread that has ended does nothing any more. *)
  Definition ended (i : nat) (b : bridge) : Prop :=
    exists t, nth_error (b_threads b) i = Some t /\ th_pc t = Ended.
  Lemma ended_step i b i' r d : ended i b ->
    ended i (step b i' r d) /\
    (forall j, forwarded i j (b_log (step b i' r d)) = forwarded i j (b_log b)).
  Proof.
    intros (t & Et & Ep). unfold Bridge.step.
    destruct (nth_error (b_threads b) i') as [t'|] eqn:Et'; [|split; [exists t; auto|reflexivity]].
    destruct (Nat.eq_dec i' i) as [->|Hne].
    { assert (t' = t) as -> by congruence. rewrite Ep. split; [exists t; auto|reflexivity]. }
    apply Nat.eqb_neq in Hne as Hb.
    assert (G : forall p c log, ended i (Bridge (set_thread (b_threads b) i' (Thread p c)) log)).
    { intros p c log. exists t. cbn [b_threads]. rewrite set_thread_other by exact Hne. auto. }
    assert (G0 : forall log, ended i (Bridge (b_threads b) log)) by (intros log; exists t; auto).
    destruct (th_pc t') as [|f [|j l]|].
    - destruct r as [f| |e].
      + destruct (passes f); (split; [apply G || apply G0|]); intros j; cbn [b_log];
          rewrite forwarded_app, tx_rx, app_nil_r; reflexivity.
      + split; [exists t; auto|reflexivity].
      + split; [apply G|reflexivity].
    - split; [apply G|reflexivity].
    - destruct (Nat.eqb j i'); (split; [apply G|]); intros k; cbn [b_log]; [reflexivity|].
      rewrite forwarded_app, tx_one, Hb. apply app_nil_r.
    - split; [exists t; auto|reflexivity].
  Qed.
  Lemma ended_run i steps : forall b, ended i b ->
    forall j, forwarded i j (b_log (run ids n b steps)) = forwarded i j (b_log b).
  Proof.
    induction steps as [|((k & r) & d) s IH]; intros b H j; cbn; [reflexivity|].
    destruct (ended_step i b k r d H) as (H' & E). rewrite (IH _ H'), E. reflexivity.
  Qed.
  Lemma run_app b s1 s2 : run ids n b (s1 ++ s2) = run ids n (run ids n b s1) s2.
  Proof. revert b. induction s1 as [|((k & r) & d) s IH]; intros b; cbn; [reflexivity|apply IH]. Qed.

  (** The counter counts the frames that passed the filter. *)
  Definition counts (i : nat) (b : bridge) : Prop :=
    forall t, nth_error (b_threads b) i = Some t ->
      th_count t = N.of_nat (length (filter passes (received i (b_log b)))).
  Lemma counts_step i b i' r d : counts i b -> counts i (step b i' r d).
  Proof.
    intros H. unfold Bridge.step. destruct (nth_error (b_threads b) i') as [t'|] eqn:Et; [|exact H].
    assert (Hlen : i' < length (b_threads b)) by (apply nth_error_Some; congruence).
    assert (G : forall p ev, received i ev = [] ->
                counts i (Bridge (set_thread (b_threads b) i' (Thread p (th_count t'))) (b_log b ++ ev))).
    { intros p ev Hr t. cbn [b_threads b_log]. rewrite received_app, Hr, app_nil_r.
      destruct (Nat.eq_dec i' i) as [->|Hne].
      - rewrite set_thread_same by exact Hlen. intros [= <-]. exact (H t' Et).
      - rewrite set_thread_other by exact Hne. apply H. }
    assert (G0 : forall p, counts i (Bridge (set_thread (b_threads b) i' (Thread p (th_count t'))) (b_log b))).
    { intros p. rewrite <- (app_nil_r (b_log b)). apply G. reflexivity. }
    destruct (th_pc t') as [|f [|j l]|]; [|apply G0| |exact H].
    - destruct r as [f| |e]; [|exact H|apply G0].
      destruct (passes f) eqn:Ep; intros t; cbn [b_threads b_log]; rewrite received_app, rx_one, filter_app, app_length.
      + destruct (Nat.eq_dec i' i) as [->|Hne].
        * rewrite set_thread_same by exact Hlen. intros [= <-]. cbn [th_count].
          rewrite (H t' Et), Nat.eqb_refl. cbn [filter]. rewrite Ep. cbn [length]. lia.
        * rewrite set_thread_other by exact Hne. intros Ht. rewrite (H t Ht).
          apply Nat.eqb_neq in Hne. rewrite Hne. cbn. lia.
      + intros Ht. rewrite (H t Ht). destruct (Nat.eqb i' i); cbn [filter]; [rewrite Ep|]; cbn; lia.
    - destruct (Nat.eqb j i'); [apply G0|apply G; reflexivity].
  Qed.
  Lemma counts_run i steps : counts i (run ids n (start n) steps).
  Proof.
    assert (G : forall b, counts i b -> counts i (run ids n b steps)).
    { induction steps as [|((k & r) & d) s IH]; intros b H; cbn; [exact H|apply IH, counts_step, H]. }
    apply G. intros t Ht. cbn in Ht. apply nth_error_In, repeat_spec in Ht. subst. reflexivity.
  Qed.
  Lemma counts_selected i steps t l :
    nth_error (b_threads (run ids n (start n) steps)) i = Some t ->
    selects (wanted ids) (received i (b_log (run ids n (start n) steps))) l ->
    th_count t = N.of_nat (length l).
  Proof.
    intros Ht Hl. rewrite (counts_run i steps t Ht). f_equal. f_equal.
    remember (received i (b_log (run ids n (start n) steps))) as r eqn:Er. clear Er Ht.
    induction Hl as [|x r l Hx Hl IH|x r l Hx Hl IH]; cbn; [reflexivity| |].
    - assert (passes x = true) as -> by (apply passes_wanted; exact Hx). congruence.
    - destruct (passes x) eqn:E; [|exact IH]. exfalso. apply Hx, passes_wanted, E.
  Qed.
End Facts.

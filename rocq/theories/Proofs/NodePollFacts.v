(** Requests at a rate. *)
From Verif.Base Require Import Prelude Bits.
From Verif.Model Require Import Types Codec MsgId Frames TransferManager Sched Node NodePoll.
From Verif.Spec Require Import NodeSpec.
From Verif.Proofs Require Import ManagerFacts SchedFacts NodeFacts RequestFacts NodeRequests NodeTop.
Local Open Scope Z_scope.

Section NodePoll.
  Variable clk : nat -> Z.
  Variable beh : list nobs -> list (nop * bool) * outcome.
  Variable drv : list nobs -> list frame -> option exn.
  Variable status : list nobs -> value.
  Variable status_dt : datatype.
  Variable types : datatypes.
  Variable second : Z.
  Variable receive : nat -> list nobs -> nat -> Z -> res (option (bool * frame)).
  Variable wall : nat -> Z.
  Variables last period : Z.
  Variable dt : datatype.
  Variable v : value.
  Variable dest : N.
  Variable canfd : bool.
  Variables turns fuel : nat.
  Notation spun k s := (spin clk beh drv status status_dt types second (receive k) turns fuel s (Some period)).
  Notation poll_turn := (poll_turn clk beh drv status status_dt types second receive wall last period dt v dest canfd turns fuel).
  Notation poll_loop := (poll_loop clk beh drv status status_dt types second receive wall last period dt v dest canfd turns fuel).
  Notation node_history := (node_history clk beh drv status status_dt types second).

  (** A turn asks once if [spin] returns and the time has come. *)
  Lemma asks k s s1 got c : spun k s = (s1, got, Ok c) -> period < wall k - last -> anonymous s1 = false ->
    exists s' h tid fs err more, poll_turn k s = (s', [n_reads s1]) /\
      n_log s' = n_log s1 ++ OSend (Some (dt_id dt, Some dest)) h tid fs err :: more /\
      h_service h = true /\ h_request h = true /\ h_source h = n_id s1 /\ h_dest h = Some dest /\
      match more with [] => True | [ORequest _ _ _ _] => True | _ => False end.
  Proof.
    intros E W A. unfold NodePoll.poll_turn. rewrite E. destruct (Z.ltb_spec period (wall k - last)); [|lia].
    unfold request. rewrite A. cbn [next_transfer_id].
    destruct (send drv _ _ _ _ _ _ _) as [s2 r] eqn:G. apply send_shape in G as (fs & err & -> & _ & Hr).
    destruct r as [t|x].
    - destruct (message_id (tx_header t)) as [id|x].
      + do 6 eexists. split; [reflexivity|]. cbn [fst]. split; [cbn; rewrite <- app_assoc; reflexivity|]. cbn. auto.
      + do 5 eexists. exists []. split; [reflexivity|]. cbn [fst]. split; [cbn; reflexivity|]. cbn. auto.
    - do 5 eexists. exists []. split; [reflexivity|]. cbn [fst]. split; [cbn; reflexivity|]. cbn. auto.
  Qed.
  (** While the time of day has not come that far, nothing is asked. *)
  Lemma silent n : forall k s, (forall j, (k <= j < k + n)%nat -> wall j - last <= period) -> snd (poll_loop n k s) = [].
  Proof.
    induction n as [|n IH]; intros k s H; cbn [NodePoll.poll_loop]; [reflexivity|].
    destruct (poll_turn k s) as [s1 l1] eqn:E1. specialize (IH (S k) s1).
    destruct (poll_loop n (S k) s1) as [s2 l2]. cbn [snd] in *. rewrite IH by (intros j J; apply H; lia). rewrite app_nil_r.
    unfold NodePoll.poll_turn in E1. destruct (spun k s) as [[s3 got] r]. destruct r as [c|x]; [|congruence].
    specialize (H k ltac:(lia)). destruct (Z.ltb_spec period (wall k - last)); [lia|congruence].
  Qed.

  Hypothesis period_pos : 0 < period.

  Lemma reads_recv n s t : (n <= n_reads s)%nat -> (n <= n_reads (fst (recv_transfer clk beh drv second fuel s t)))%nat.
  Proof.
    intros H. unfold Node.recv_transfer.
    assert (Hr : forall s', (n <= n_reads s')%nat -> (n <= n_reads (fst (react clk beh drv second s')))%nat).
    { intros s'. apply (react_ind clk beh drv second (fun s => (n <= n_reads s)%nat)). intros; now apply reads_nop. }
    destruct (_ && _ && _).
    - destruct (find_request t (n_requests s)) as [k|]; auto.
      destruct (dget key_eqb (n_callbacks s) k) as [[r ev]|]; auto.
      set (s1 := match cancel ev (n_queue s) with Some _ => _ | None => s end).
      assert (H1 : (n <= n_reads s1)%nat) by (unfold s1; destruct (cancel ev (n_queue s)); exact H).
      specialize (Hr (see s1 (OResponse r t)) H1).
      destruct (react clk beh drv second (see s1 (OResponse r t))) as [s2 [y|x]]; cbn [fst] in *; auto.
      destruct (negb _); auto. destruct (negb _); auto.
    - destruct (_ || _ || _); auto. apply (call_handlers_ind clk beh drv second (fun s => (n <= n_reads s)%nat)); auto.
      + intros. now apply reads_nop.
      + intros s' d v' de ti pr c H'. unfold Node.respond. destruct (anonymous s'); auto.
        destruct (send _ _ _ _ _ _ _ _) as [s2 r] eqn:E. apply send_shape in E.
        destruct E as (fs & err & -> & _ & Hr'). destruct r; auto.
  Qed.
  Lemma reads_history s ins : (n_reads s <= n_reads (node_history fuel s ins))%nat.
  Proof.
    apply (history_ind clk beh drv status status_dt types second (fun x => (n_reads s <= n_reads x)%nat)); auto.
    - intros. now apply reads_nop.
    - intros. now apply reads_recv.
    - intros. cbn. lia.
    - intros. apply reads_exec. assumption.
  Qed.
  Lemma reads_spin k s s' got r : spun k s = (s', got, r) -> (n_reads s <= n_reads s')%nat /\
    (is_ok r = true -> (0 < n_reads s')%nat /\ clk (n_reads s) + period <= clk (pred (n_reads s'))).
  Proof.
    assert (NZ : period <> 0) by (clear - period_pos; lia).
    intros H. destruct (spin_waits _ _ _ _ _ _ _ 0 _ _ _ _ _ _ _ _ NZ H) as (ins & -> & _ & _ & H'). split; [apply reads_history|exact H'].
  Qed.
  Lemma reads_request s : (n_reads s <= n_reads (fst (request clk drv second s dt v dest None None (Some canfd))))%nat.
  Proof. exact (reads_nop clk drv second (n_reads s) s (NRequest dt v dest None None (Some canfd)) (le_n _)). Qed.
  Lemma reads_turn k s s' l : poll_turn k s = (s', l) -> (n_reads s <= n_reads s')%nat /\
    (l = [] \/ exists i, l = [i] /\ (0 < i)%nat /\ (n_reads s <= i <= n_reads s')%nat /\ clk (n_reads s) + period <= clk (pred i)).
  Proof.
    unfold NodePoll.poll_turn. destruct (spun k s) as [[s1 got] r] eqn:E. apply reads_spin in E as (A & B).
    destruct r as [c|x]; [|intros H; assert (s' = s1 /\ l = []) as (-> & ->) by (split; congruence); auto].
    destruct (period <? wall k - last).
    - intros H. assert (s' = fst (request clk drv second s1 dt v dest None None (Some canfd)) /\ l = [n_reads s1]) as (-> & ->) by (split; congruence).
      pose proof (reads_request s1). destruct (B eq_refl) as (B1 & B2). split; [lia|]. right. exists (n_reads s1). repeat split; auto.
    - intros H. assert (s' = s1 /\ l = []) as (-> & ->) by (split; congruence). auto.
  Qed.

  (** From one request to the next the period passes. *)
  Fixpoint spaced (from : option nat) (l : list nat) : Prop :=
    match l with
    | [] => True
    | j :: l => match from with Some i => clk i + period <= clk (pred j) | None => True end /\ spaced (Some j) l
    end.
  Hypothesis steady : forall i j, (i <= j)%nat -> clk i <= clk j.
  Lemma spaced_loop n : forall k s s' l from, poll_loop n k s = (s', l) ->
    match from with Some i => (i <= n_reads s)%nat | None => True end -> spaced from l.
  Proof.
    induction n as [|n IH]; intros k s s' l from H F; cbn [NodePoll.poll_loop] in H.
    - assert (l = []) as -> by congruence. exact Logic.I.
    - destruct (poll_turn k s) as [s1 l1] eqn:E1. destruct (poll_loop n (S k) s1) as [s2 l2] eqn:E2.
      assert (l = l1 ++ l2) as -> by congruence. apply reads_turn in E1 as (A & [->|(i & -> & P & (B1 & B2) & C)]); cbn [app].
      + apply (IH _ _ _ _ _ E2). destruct from; [lia|exact Logic.I].
      + split; [|apply (IH _ _ _ _ _ E2); exact B2]. destruct from as [x|]; [|exact Logic.I]. pose proof (steady x (n_reads s) F). lia.
  Qed.
  Lemma spaced_at l : forall from a i j b, spaced from l -> l = a ++ i :: j :: b -> clk i + period <= clk (pred j).
  Proof.
    induction l as [|x l IH]; intros from a i j b H E; [destruct a; discriminate|]. destruct H as (H1 & H2).
    destruct a as [|y a]; cbn [app] in E; injection E as -> E.
    - rewrite E in H2. apply H2.
    - apply (IH _ _ _ _ _ H2 E).
  Qed.
  Lemma gap n k s s' l a i j b : poll_loop n k s = (s', l) -> l = a ++ i :: j :: b -> clk i + period <= clk (pred j).
  Proof. intros H. apply (spaced_at l None). exact (spaced_loop n k s s' l None H Logic.I). Qed.
End NodePoll.

(** Consequences of the scheduler's invariant. *)
From Verif.Base Require Import Prelude.
From Verif.Model Require Import Sched.
From Verif.Spec Require Import SchedSpec.
From Verif.Proofs Require Import SchedFacts.
Require Import Coq.Sorting.Sorted.
Local Open Scope Z_scope.

Lemma runs_app h l1 l2 : runs h (l1 ++ l2) = runs h l1 ++ runs h l2.
Proof.
  induction l1 as [|o l1 IH]; cbn; auto. destruct o; auto. destruct (Nat.eqb h0 h); cbn; congruence.
Qed.

Lemma runs_in h l due now : In (due, now) (runs h l) <-> exists p q, In (ORun h due p q now) l.
Proof.
  induction l as [|o l IH]; cbn; [firstorder|].
  destruct o; try (rewrite IH; split; intros (p & q & H); exists p, q; [auto|destruct H; [discriminate|auto]]).
  destruct (Nat.eqb_spec h0 h) as [->|Hne]; cbn; rewrite IH.
  - split.
    + intros [E|(p & q & H)]; [injection E as -> ->; eauto|eauto].
    + intros (p & q & [E|H]); [injection E; intros; subst; auto|eauto].
  - split; intros (p & q & H); exists p, q; auto. destruct H; auto. congruence.
Qed.

Definition creation (h : nat) (k : tk) : obs :=
  if k_periodic k then OPeriodic h (k_start k) (k_param k) else ODefer h (k_start k) (k_param k).

Record told (h : nat) (l : list obs) (k : tk) : Prop := {
  t_runs : k_runs k = length (runs h l);
  t_dead : k_dead k = true <-> In (OCancel h) l;
  t_defer : forall t d, In (ODefer h t d) l -> k_periodic k = false /\ k_start k = t /\ k_param k = d;
  t_per : forall t d, In (OPeriodic h t d) l -> k_periodic k = true /\ k_start k = t /\ k_param k = d;
  t_nth : forall j due now, nth_error (runs h l) j = Some (due, now) ->
    due <= now /\
    due = k_start k + (if k_periodic k then Z.of_nat (S j) * k_param k else k_param k);
  t_once : k_periodic k = false ->
    (length (runs h l) <= 1)%nat /\ (k_dead k = true -> runs h l = [])
}.

Lemma legal_none l : legal l -> forall h, status h l = None ->
  forall o, In o l -> obs_task o <> h.
Proof. intros L h Hs o Ho E. apply (legal_task _ L) in Ho. congruence. Qed.

Lemma legal_told l : legal l -> forall h k, status h l = Some k -> told h l k.
Proof.
  induction 1 as [|l o Hl IH Ho]; intros h k Hk; [discriminate|].
  destruct (Nat.eq_dec (obs_task o) h) as [E|Hne].
  2:{ rewrite status_other in Hk by auto. destruct (IH h k Hk) as [T1 T2 T3 T4 T5 T6].
      assert (Er : runs h (l ++ [o]) = runs h l).
      { rewrite runs_app. destruct o; cbn in *; try (now rewrite app_nil_r).
        destruct (Nat.eqb_spec h0 h); [congruence|now rewrite app_nil_r]. }
      assert (Hi : forall o', obs_task o' = h -> In o' (l ++ [o]) <-> In o' l).
      { intros o' E'. rewrite in_app_iff. cbn. split; auto. intros [?|[->|[]]]; auto. congruence. }
      constructor; rewrite ?Er; auto; try (intros; rewrite Hi in * by reflexivity; auto). }
  rewrite status_snoc in Hk.
  destruct o as [h0 t d|h0 t d|h0 due prio seq now|h0]; cbn in E; subst h0; cbn [step_tk] in Hk;
    rewrite Nat.eqb_refl in Hk; cbn [ok_obs] in Ho.
  - injection Hk as <-. pose proof (legal_none l Hl h Ho) as Hn.
    assert (Er : runs h l = []).
    { destruct (runs h l) as [|[a b] r] eqn:E; auto. exfalso.
      assert (In (a, b) (runs h l)) as Hi by (rewrite E; cbn; auto).
      apply runs_in in Hi. destruct Hi as (p & q & Hi). now apply Hn in Hi. }
    constructor; rewrite ?runs_app, ?Er; cbn; auto; try lia.
    + split; [discriminate|]. rewrite in_app_iff. cbn. intros [Hi|[Hi|[]]]; [|discriminate]. now apply Hn in Hi.
    + intros t' d' Hi. apply in_app_or in Hi. destruct Hi as [Hi|[Hi|[]]]; [now apply Hn in Hi|].
      injection Hi; auto.
    + intros t' d' Hi. apply in_app_or in Hi. destruct Hi as [Hi|[Hi|[]]]; [now apply Hn in Hi|discriminate].
    + intros j due now Hj. destruct j; discriminate.
  - injection Hk as <-. pose proof (legal_none l Hl h Ho) as Hn.
    assert (Er : runs h l = []).
    { destruct (runs h l) as [|[a b] r] eqn:E; auto. exfalso.
      assert (In (a, b) (runs h l)) as Hi by (rewrite E; cbn; auto).
      apply runs_in in Hi. destruct Hi as (p & q & Hi). now apply Hn in Hi. }
    constructor; rewrite ?runs_app, ?Er; cbn; auto; try lia.
    + split; [discriminate|]. rewrite in_app_iff. cbn. intros [Hi|[Hi|[]]]; [|discriminate]. now apply Hn in Hi.
    + intros t' d' Hi. apply in_app_or in Hi. destruct Hi as [Hi|[Hi|[]]]; [now apply Hn in Hi|discriminate].
    + intros t' d' Hi. apply in_app_or in Hi. destruct Hi as [Hi|[Hi|[]]]; [now apply Hn in Hi|].
      injection Hi; auto.
    + intros j due now Hj. destruct j; discriminate.
  - destruct Ho as (Hdue & k0 & Hk0 & He). rewrite Hk0 in Hk. injection Hk as <-.
    destruct (IH h k0 Hk0) as [T1 T2 T3 T4 T5 T6].
    assert (Er : runs h (l ++ [ORun h due prio seq now]) = runs h l ++ [(due, now)]).
    { rewrite runs_app. cbn. now rewrite Nat.eqb_refl. }
    unfold expected in He. destruct (k_dead k0) eqn:Ed; [discriminate|].
    constructor; rewrite ?Er; cbn [k_runs k_dead k_start k_param k_periodic].
    + rewrite app_length. cbn. lia.
    + rewrite in_app_iff. cbn. split; [congruence|].
      intros [Hi|[Hi|[]]]; [apply T2 in Hi; congruence|discriminate].
    + intros t d Hi. apply in_app_or in Hi. destruct Hi as [Hi|[Hi|[]]]; [auto|discriminate].
    + intros t d Hi. apply in_app_or in Hi. destruct Hi as [Hi|[Hi|[]]]; [auto|discriminate].
    + intros j due' now' Hj. destruct (Nat.lt_ge_cases j (length (runs h l))) as [Lj|Lj].
      * rewrite nth_error_app1 in Hj by auto. auto.
      * rewrite nth_error_app2 in Hj by auto. destruct (j - length (runs h l))%nat eqn:Ej.
        2:{ destruct n; discriminate. }
        assert (due' = due) by (cbn in Hj; congruence). assert (now' = now) by (cbn in Hj; congruence).
        subst. split; auto. assert (j = k_runs k0) by lia. subst j.
        destruct (k_periodic k0); [congruence|].
        destruct (k_runs k0); [congruence|discriminate].
    + intros Hp. rewrite Hp in *. split; [|intros; congruence].
      rewrite app_length. cbn. destruct (k_runs k0) eqn:Ek; [lia|discriminate].
  - destruct Ho as (k0 & Hk0 & He). rewrite Hk0 in Hk. injection Hk as <-.
    destruct (IH h k0 Hk0) as [T1 T2 T3 T4 T5 T6].
    assert (Er : runs h (l ++ [OCancel h]) = runs h l).
    { rewrite runs_app. cbn. apply app_nil_r. }
    unfold expected in He.
    constructor; rewrite ?Er; cbn [k_runs k_dead k_start k_param k_periodic]; auto.
    + rewrite in_app_iff. cbn. tauto.
    + intros t d Hi. apply in_app_or in Hi. destruct Hi as [Hi|[Hi|[]]]; [auto|discriminate].
    + intros t d Hi. apply in_app_or in Hi. destruct Hi as [Hi|[Hi|[]]]; [auto|discriminate].
    + intros Hp. split; [now apply T6|]. intros _. rewrite Hp in He.
      destruct (k_dead k0); [congruence|]. destruct (k_runs k0) eqn:Ek; [|congruence].
      apply length_zero_iff_nil. auto.
Qed.

(** After the cancellation of a task it does not run. *)
Lemma legal_suffix l1 l2 : legal (l1 ++ l2) -> legal l1.
Proof.
  revert l1. induction l2 as [|o l2 IH] using rev_ind; intros l1 H; [now rewrite app_nil_r in H|].
  rewrite app_assoc in H. inversion H as [E|l o' Hl Ho E].
  - destruct (l1 ++ l2); discriminate.
  - apply app_inj_tail in E. destruct E as [-> ->]. now apply IH.
Qed.

Lemma legal_last l o : legal (l ++ [o]) -> ok_obs l o.
Proof.
  intros H. inversion H as [E|l' o' Hl Ho E]; [destruct l; discriminate|].
  apply app_inj_tail in E. destruct E as [-> ->]. auto.
Qed.

Lemma legal_cancelled l1 h l2 : legal (l1 ++ OCancel h :: l2) -> runs h l2 = [] /\ ~ In (OCancel h) l2.
Proof.
  induction l2 as [|o l2 IH] using rev_ind; intros H; [cbn; auto|].
  replace (l1 ++ OCancel h :: l2 ++ [o]) with ((l1 ++ OCancel h :: l2) ++ [o]) in H
    by (rewrite <- app_assoc; reflexivity).
  pose proof (legal_suffix _ _ H) as Hl. destruct (IH Hl) as [IH1 IH2].
  apply legal_last in H. rewrite runs_app, IH1, in_app_iff.
  destruct o as [h0 t d|h0 t d|h0 due prio seq now|h0]; cbn in *; try (split; [reflexivity|intros [?|[?|[]]]; [auto|discriminate]]).
  - split; [|intros [?|[?|[]]]; [auto|discriminate]].
    destruct (Nat.eqb_spec h0 h) as [->|]; auto. destruct H as (_ & k & Hk & He).
    destruct (legal_told _ Hl _ _ Hk) as [_ T2 _ _ _ _]. unfold expected in He.
    assert (k_dead k = true) as Ed by (apply T2; apply in_or_app; cbn; auto). rewrite Ed in He. discriminate.
  - split; auto. intros [?|[E|[]]]; auto. injection E as ->. destruct H as (k & Hk & He).
    destruct (legal_told _ Hl _ _ Hk) as [_ T2 _ _ _ _]. unfold expected in He.
    assert (k_dead k = true) as Ed by (apply T2; apply in_or_app; cbn; auto). rewrite Ed in He. congruence.
Qed.

Section Top.
  Variable clk : nat -> Z.
  Variable beh : list obs -> list uop * bool.

  Lemma in_status s h o : inv clk s -> In o (s_log s) -> obs_task o = h ->
    exists k, status h (s_log s) = Some k /\ told h (s_log s) k.
  Proof.
    intros I Ho <-. pose proof (legal_task _ (i_legal _ _ I) _ Ho) as H.
    destruct (status (obs_task o) (s_log s)) as [k|] eqn:E; [|congruence].
    exists k. split; auto. eapply legal_told; eauto. apply I.
  Qed.

  Lemma legal_run_prio l : legal l -> forall h t d due prio seq now,
    In (ODefer h t d) l -> In (ORun h due prio seq now) l -> prio = 1.
  Proof.
    intros L h t d due prio seq now Hd Hr. apply in_split in Hr. destruct Hr as (a & b & ->).
    replace (a ++ ORun h due prio seq now :: b) with ((a ++ [ORun h due prio seq now]) ++ b) in L
      by (rewrite <- app_assoc; reflexivity).
    pose proof (legal_suffix _ _ L) as L1. pose proof (legal_last _ _ L1) as (Hdue & k & Hk & He).
    assert (Hs : exists k', status h ((a ++ [ORun h due prio seq now]) ++ b) = Some k' /\ k_periodic k' = k_periodic k /\ k_start k' = k_start k).
    { clear - L Hk. revert L. induction b as [|o b IH] using rev_ind; intros L.
      - rewrite app_nil_r, status_snoc, Hk. cbn. rewrite Nat.eqb_refl. eauto.
      - rewrite app_assoc in L |- *. pose proof (legal_suffix _ _ L) as L'.
        destruct (IH L') as (k' & Hk' & E1 & E2). apply legal_last in L.
        rewrite status_snoc, Hk'. destruct o as [h0 t d|h0 t d|h0 due' prio' seq' now'|h0]; cbn in *;
          destruct (Nat.eqb_spec h0 h) as [->|]; eauto; congruence. }
    destruct Hs as (k' & Hk' & E & _).
    pose proof (legal_told _ L _ _ Hk') as T. rewrite <- app_assoc in T. cbn [app] in T.
    destruct (t_defer _ _ _ T t d Hd) as (Ep & _). unfold expected in He.
    rewrite <- E, Ep in He. destruct (k_dead k); [discriminate|]. destruct (k_runs k); congruence.
  Qed.

  (** C30: never early, at most once, never after being cancelled. *)
  Lemma deferred_once ops h t d : In (ODefer h t d) (s_log (history clk beh ops)) ->
    let l := s_log (history clk beh ops) in
    (forall due prio seq now, In (ORun h due prio seq now) l -> due = t + d /\ prio = 1 /\ t + d <= now) /\
    (length (runs h l) <= 1)%nat /\
    (In (OCancel h) l -> runs h l = []).
  Proof.
    intros Hin l. pose proof (inv_history clk beh ops) as I.
    destruct (in_status _ h _ I Hin eq_refl) as (k & Hk & T).
    destruct (t_defer _ _ _ T t d Hin) as (Ep & <- & <-).
    destruct (t_once _ _ _ T Ep) as [H1 H2]. split; [|split; auto].
    - intros due prio seq now Hr.
      assert (Hr' : In (due, now) (runs h l)) by (apply runs_in; eauto).
      apply In_nth_error in Hr'. destruct Hr' as (j & Hj).
      destruct (t_nth _ _ _ T _ _ _ Hj) as [Hd E]. rewrite Ep in E.
      split; auto. split; [|lia].
      eapply legal_run_prio; [apply (i_legal _ _ I)| |]; eauto.
    - intros Hc. apply H2. now apply (t_dead _ _ _ T).
  Qed.

  (** A finished poll leaves only events of the future. *)
  Lemma run_reads fuel : forall s, (s_reads s <= s_reads (fst (run_scheduler clk beh fuel s)))%nat.
  Proof.
    intros s0. apply (run_step clk beh (fun s => (s_reads s0 <= s_reads s)%nat)); [cbn; lia| |lia].
    intros s e q now H _ _ _. rewrite exec_started.
    apply (callback_ind clk beh (fun s => (s_reads s0 <= s_reads s)%nat)).
    - intros s' op _ H'. destruct op; cbn; try lia; unfold cancel_handle;
        destruct (dget Nat.eqb (s_holders s') h); cbn; auto; destruct (cancel _ _); cbn; auto.
    - unfold started. destruct (ev_act e); cbn; lia.
  Qed.

  Lemma run_remaining fuel : forall s s' r, inv clk s ->
    run_scheduler clk beh fuel s = (s', Remaining r) ->
    (s_reads s < s_reads s')%nat /\ Forall (fun e => clk (pred (s_reads s')) < ev_time e) (s_queue s').
  Proof.
    unfold run_scheduler. induction fuel as [|fuel IH]; cbn [run]; intros s s' r I H; [discriminate|].
    destruct (s_queue s) as [|e q] eqn:Eq; [discriminate|]. cbn [read] in H.
    pose proof (inv_read _ _ I) as I1. cbn [read snd] in I1. set (s1 := Sched _ _ _ _ _ _) in *.
    destruct (Z.ltb_spec (clk (s_reads s)) (ev_time e)) as [L|L].
    - injection H as <- <-. cbn. split; [lia|]. rewrite Eq.
      pose proof (i_sorted _ _ I) as Ss. rewrite Eq in Ss. inversion Ss as [|? ? _ S2]; subst.
      constructor; auto. eapply Forall_impl; [|exact S2]. unfold ev_lt. intros; lia.
    - assert (I2 : inv clk (fst (exec clk beh e (clk (s_reads s)) (pop s1)))).
      { eapply inv_exec; eauto. exists (s_reads s). cbn. lia. }
      assert (Hr : (s_reads s < s_reads (fst (exec clk beh e (clk (s_reads s)) (pop s1))))%nat).
      { rewrite exec_started. apply (callback_ind clk beh (fun x => (s_reads s < s_reads x)%nat)).
        - intros s2 op _ H'. destruct op; cbn; try lia; unfold cancel_handle;
            destruct (dget Nat.eqb (s_holders s2) h); cbn; auto; destruct (cancel _ _); cbn; auto.
        - unfold started. destruct (ev_act e); cbn; lia. }
      destruct (exec clk beh e (clk (s_reads s)) (pop s1)) as [s2 [x|]]; [discriminate|].
      cbn [fst] in *. destruct (IH s2 s' r I2 H). split; auto. lia.
  Qed.

  Lemma poll_ok fuel s s' d : poll clk beh fuel s = (s', Ok d) ->
    exists s1 r, run_scheduler clk beh fuel s = (s1, Remaining r) /\ s' = snd (read clk s1).
  Proof.
    unfold poll. destruct (run_scheduler clk beh fuel s) as [s1 []]; intros H; try discriminate.
    injection H as <- <-. eauto.
  Qed.

  (** The tasks that are due when a poll starts have run, or have been
      cancelled, when it ends. *)
  Lemma due_done ops fuel s' dl h t d : monotone clk ->
    let s := history clk beh ops in
    poll clk beh fuel s = (s', Ok dl) ->
    In (ODefer h t d) (s_log s) -> t + d <= clk (s_reads s) ->
    length (runs h (s_log s')) = 1%nat \/ In (OCancel h) (s_log s').
  Proof.
    intros Hm s Hp Hin Hdue. pose proof (inv_history clk beh ops) as I. fold s in I.
    destruct (poll_ok _ _ _ _ Hp) as (s1 & r & Hr & ->).
    pose proof (run_remaining _ _ _ _ I Hr) as [Hlt Hf]. 
    pose proof (inv_run clk beh fuel s I) as I1. rewrite Hr in I1. cbn [fst] in I1.
    cbn [read snd s_log].
    assert (Hin1 : In (ODefer h t d) (s_log s1)).
    { change s1 with (fst (s1, Remaining r)). rewrite <- Hr.
      apply (run_step clk beh (fun s => In (ODefer h t d) (s_log s))); auto.
      intros s2 e q now H _ _ _. rewrite exec_started.
      apply (callback_ind clk beh (fun s => In (ODefer h t d) (s_log s))).
      - intros s3 op _ H'. destruct op; cbn; try (apply in_or_app; auto); unfold cancel_handle;
          destruct (dget Nat.eqb (s_holders s3) h0); cbn; auto; destruct (cancel _ _); cbn; auto;
          apply in_or_app; auto.
      - unfold started. destruct (ev_act e); cbn; apply in_or_app; auto. }
    destruct (in_status _ h _ I1 Hin1 eq_refl) as (k & Hk & T).
    destruct (t_defer _ _ _ T t d Hin1) as (Ep & Est & Epa).
    destruct (t_once _ _ _ T Ep) as [H1 H2].
    destruct (k_dead k) eqn:Ed; [right; now apply (t_dead _ _ _ T)|]. left.
    destruct (k_runs k) as [|n] eqn:Ek; [|pose proof (t_runs _ _ _ T); lia]. exfalso.
    assert (He : expected k = Some (t + d, 1)).
    { unfold expected. rewrite Ed, Ep, Ek. congruence. }
    destruct (i_complete _ _ I1 h k _ Hk He) as (e & Hine & Ht).
    destruct (i_sound _ _ I1 e Hine) as (k' & Hk' & He' & _ & _).
    rewrite Ht in Hk'. assert (k' = k) by congruence. subst k'.
    assert (ev_time e = t + d) by congruence.
    rewrite Forall_forall in Hf. specialize (Hf e Hine).
    pose proof (Hm (s_reads s) (pred (s_reads s1))). lia.
  Qed.

  (** ** Periodic tasks *)

  Lemma periodic_times ops h t p : In (OPeriodic h t p) (s_log (history clk beh ops)) ->
    forall k due now, nth_error (runs h (s_log (history clk beh ops))) k = Some (due, now) ->
    due = t + Z.of_nat (S k) * p /\ due <= now.
  Proof.
    intros Hin j due now Hj. pose proof (inv_history clk beh ops) as I.
    destruct (in_status _ h _ I Hin eq_refl) as (k & Hk & T).
    destruct (t_per _ _ _ T t p Hin) as (Ep & <- & <-).
    destruct (t_nth _ _ _ T _ _ _ Hj) as [Hd E]. rewrite Ep in E. auto.
  Qed.

  Lemma in_log_run o fuel s : In o (s_log s) -> In o (s_log (fst (run_scheduler clk beh fuel s))).
  Proof.
    intros Hin. apply (run_step clk beh (fun s => In o (s_log s))); auto.
    intros s2 e q now H _ _ _. rewrite exec_started.
    apply (callback_ind clk beh (fun s => In o (s_log s))).
    - intros s3 op _ H'. destruct op; cbn; try (apply in_or_app; auto); unfold cancel_handle;
        destruct (dget Nat.eqb (s_holders s3) h); cbn; auto; destruct (cancel _ _); cbn; auto;
        apply in_or_app; auto.
    - unfold started. destruct (ev_act e); cbn; apply in_or_app; auto.
  Qed.

  Lemma floor_unique a p n : 0 < p -> n * p <= a -> a < (n + 1) * p -> a / p = n.
  Proof. intros. symmetry. apply Z.div_unique with (a - n * p); lia. Qed.

  Lemma periodic_count ops fuel s' dl h t p : monotone clk ->
    let s := history clk beh ops in
    poll clk beh fuel s = (s', Ok dl) ->
    In (OPeriodic h t p) (s_log s) -> 0 < p -> ~ In (OCancel h) (s_log s') ->
    Z.of_nat (length (runs h (s_log s'))) = (clk (s_reads s' - 2)%nat - t) / p.
  Proof.
    intros Hm s Hp Hin Hpos Hnc. pose proof (inv_history clk beh ops) as I. fold s in I.
    destruct (poll_ok _ _ _ _ Hp) as (s1 & r & Hr & ->).
    pose proof (run_remaining _ _ _ _ I Hr) as [Hlt Hf].
    pose proof (inv_run clk beh fuel s I) as I1. rewrite Hr in I1. cbn [fst] in I1.
    cbn [read snd s_log s_reads] in *.
    replace (S (s_reads s1) - 2)%nat with (pred (s_reads s1)) by lia.
    assert (Hin1 : In (OPeriodic h t p) (s_log s1)).
    { change s1 with (fst (s1, Remaining r)). rewrite <- Hr. now apply in_log_run. }
    destruct (in_status _ h _ I1 Hin1 eq_refl) as (k & Hk & T).
    destruct (t_per _ _ _ T t p Hin1) as (Ep & Est & Epa).
    assert (Ed : k_dead k = false).
    { destruct (k_dead k) eqn:Ed; auto. exfalso. apply Hnc. now apply (t_dead _ _ _ T). }
    assert (He : expected k = Some (t + Z.of_nat (S (k_runs k)) * p, 0)).
    { unfold expected. rewrite Ed, Ep, Est, Epa. reflexivity. }
    destruct (i_complete _ _ I1 h k _ Hk He) as (e & Hine & Ht).
    destruct (i_sound _ _ I1 e Hine) as (k' & Hk' & He' & _ & _).
    rewrite Ht in Hk'. assert (k' = k) by congruence. subst k'.
    assert (Ete : ev_time e = t + Z.of_nat (S (k_runs k)) * p) by congruence.
    rewrite Forall_forall in Hf. specialize (Hf e Hine).
    rewrite <- (t_runs _ _ _ T). symmetry. apply floor_unique; auto.
    - destruct (k_runs k) as [|n] eqn:Ek.
      + destruct (i_now _ _ I1 _ _ Hin1 eq_refl) as (i & Hi & ->).
        pose proof (Hm i (pred (s_reads s1))). lia.
      + destruct (nth_error (runs h (s_log s1)) n) as [[due now]|] eqn:En.
        2:{ apply nth_error_None in En. rewrite <- (t_runs _ _ _ T) in En. lia. }
        destruct (t_nth _ _ _ T _ _ _ En) as [Hd E]. rewrite Ep, Est, Epa in E.
        assert (Hr' : In (due, now) (runs h (s_log s1))) by (eapply nth_error_In; eauto).
        apply runs_in in Hr'. destruct Hr' as (pr & q & Hr').
        destruct (i_now _ _ I1 _ _ Hr' eq_refl) as (i & Hi & ->).
        pose proof (Hm i (pred (s_reads s1))). lia.
    - lia.
  Qed.

  (** Removal. *)
  Lemma removed_stops ops h l1 l2 : s_log (history clk beh ops) = l1 ++ OCancel h :: l2 ->
    runs h l2 = [].
  Proof.
    intros E. pose proof (i_legal _ _ (inv_history clk beh ops)) as L. rewrite E in L.
    apply legal_cancelled in L. tauto.
  Qed.

  Lemma removable s h t p : inv clk s -> In (OPeriodic h t p) (s_log s) -> ~ In (OCancel h) (s_log s) ->
    exists s', cancel_handle s h = (s', true) /\ s_log s' = s_log s ++ [OCancel h].
  Proof.
    intros I Hin Hnc. destruct (in_status _ h _ I Hin eq_refl) as (k & Hk & T).
    destruct (t_per _ _ _ T t p Hin) as (Ep & Est & Epa).
    assert (Ed : k_dead k = false).
    { destruct (k_dead k) eqn:Ed; auto. exfalso. apply Hnc. now apply (t_dead _ _ _ T). }
    assert (He : expected k = Some (t + Z.of_nat (S (k_runs k)) * p, 0)).
    { unfold expected. rewrite Ed, Ep, Est, Epa. reflexivity. }
    destruct (i_complete _ _ I h k _ Hk He) as (e & Hine & Ht).
    destruct (i_sound _ _ I e Hine) as (k' & Hk' & He' & _ & Hd).
    rewrite Ht in Hd. unfold cancel_handle. rewrite Hd.
    destruct (cancel (ev_seq e) (s_queue s)) eqn:Ec.
    - eexists. split; reflexivity.
    - apply cancel_none in Ec. exfalso. apply Ec. now apply in_map.
  Qed.

  (** Removal from the task's own callback: the cancellation follows the run
      at once. *)
  Definition self_stopping (h : nat) (ops : list uop) : Prop :=
    exists rest, ops = Remove h :: rest \/ ops = TryRemove h :: rest.

  Definition stops (h : nat) (l : list obs) : Prop :=
    forall l1 due prio seq now l2, l = (l1 ++ [ORun h due prio seq now]) ++ l2 ->
    self_stopping h (fst (beh (l1 ++ [ORun h due prio seq now]))) ->
    (exists t p, In (OPeriodic h t p) l1) ->
    exists l3, l2 = OCancel h :: l3.

  Lemma stops_snoc h l o : (forall due prio seq now, o <> ORun h due prio seq now) ->
    stops h l -> stops h (l ++ [o]).
  Proof.
    intros Ho Hs l1 due prio seq now l2 E Hb Hp.
    destruct l2 as [|x l2' _] using rev_ind.
    - rewrite app_nil_r in E. apply app_inj_tail in E. destruct E as [_ E]. now apply Ho in E.
    - rewrite app_assoc in E. apply app_inj_tail in E. destruct E as [E ->].
      destruct (Hs _ _ _ _ _ _ E Hb Hp) as (l3 & ->). eexists. reflexivity.
  Qed.

  Lemma stops_uop h s op : stops h (s_log s) -> stops h (s_log (fst (apply_uop clk s op))).
  Proof.
    intros Hs. destruct op; cbn; try (apply stops_snoc; [congruence|auto]);
      unfold cancel_handle; destruct (dget Nat.eqb (s_holders s) h0); cbn; auto;
      destruct (cancel _ _); cbn; auto; apply stops_snoc; auto; congruence.
  Qed.

  Lemma stops_exec h s e q now : inv clk s -> stops h (s_log s) -> s_queue s = e :: q ->
    ev_time e <= now -> (exists i, (i < s_reads s)%nat /\ now = clk i) ->
    stops h (s_log (fst (exec clk beh e now (pop s)))).
  Proof.
    intros I Hs Eq Hdue Hnow. rewrite exec_started.
    pose proof (inv_started clk s e q now I Eq Hdue Hnow) as I1.
    set (s1 := started e now (pop s)) in *.
    set (o := ORun (task (ev_act e)) (ev_time e) (ev_prio e) (ev_seq e) now).
    assert (El : s_log s1 = s_log s ++ [o]).
    { unfold s1, started. destruct (ev_act e); reflexivity. }
    destruct (Nat.eq_dec (task (ev_act e)) h) as [Et|Ht].
    2:{ apply (callback_ind clk beh (fun s => stops h (s_log s))).
        - intros; now apply stops_uop.
        - rewrite El. apply stops_snoc; auto. unfold o. congruence. }
    unfold callback. destruct (beh (s_log s1)) as [ops r] eqn:Eb.
    assert (Hres : stops h (s_log (fst (apply_uops clk s1 ops)))).
    2:{ destruct (apply_uops clk s1 ops) as [s2 [x|]]; exact Hres. }
    assert (D : (self_stopping h ops /\ exists t p, In (OPeriodic h t p) (s_log s)) \/
                ~ (self_stopping h ops /\ exists t p, In (OPeriodic h t p) (s_log s))).
    { destruct (i_sound _ _ I e) as (k & Hk & He & Hact & Hd); [rewrite Eq; cbn; auto|].
      destruct ops as [|op rest]; [right; intros ((? & [?|?]) & _); discriminate|].
      assert (Dop : (op = Remove h \/ op = TryRemove h) \/ ~ (op = Remove h \/ op = TryRemove h)).
      { destruct op; try (right; intros [?|?]; discriminate);
          destruct (Nat.eq_dec h0 h) as [->|]; auto; right; intros [?|?]; congruence. }
      destruct Dop as [Dop|Dop].
      2:{ right. intros ((rest' & [E|E]) & _); injection E as -> _; tauto. }
      assert (Dl : (exists t p, In (OPeriodic h t p) (s_log s)) \/
                   ~ (exists t p, In (OPeriodic h t p) (s_log s))).
      { clear. induction (s_log s) as [|x l IH]; [right; intros (? & ? & [])|].
        destruct IH as [(t & p & IH)|IH]; [left; exists t, p; cbn; auto|].
        destruct x as [h0 t d|h0 t d|h0 due prio seq now|h0];
          try (right; intros (t' & p' & [E|Hi]); [discriminate|eauto]).
        destruct (Nat.eq_dec h0 h) as [->|]; [left; exists t, d; cbn; auto|].
        right; intros (t' & p' & [E|Hi]); [congruence|eauto]. }
      destruct Dl as [Dl|Dl]; [left|right; tauto]. split; auto. exists rest. destruct Dop as [->| ->]; auto. }
    destruct D as [((rest & Hops) & t & p & Hper)|D].
    - (* the callback begins with its own removal *)
      assert (Hnc : ~ In (OCancel h) (s_log s1)).
      { rewrite El, in_app_iff. intros [Hi|[Hi|[]]]; [|discriminate].
        destruct (i_sound _ _ I e) as (k & Hk & He & Hact & Hd); [rewrite Eq; cbn; auto|].
        rewrite Et in Hk. pose proof (legal_told _ (i_legal _ _ I) _ _ Hk) as T.
        apply (t_dead _ _ _ T) in Hi. unfold expected in He. rewrite Hi in He. discriminate. }
      assert (Hper1 : In (OPeriodic h t p) (s_log s1)) by (rewrite El; apply in_or_app; auto).
      destruct (removable s1 h t p I1 Hper1 Hnc) as (s2 & Hc & El2).
      assert (Hs2 : stops h (s_log s2)).
      { rewrite El2, El. intros l1 due prio seq now' l2 E Hb Hp.
        destruct l2 as [|x l2' _] using rev_ind.
        - rewrite app_nil_r in E. apply app_inj_tail in E. destruct E as [_ E]. discriminate.
        - rewrite app_assoc in E. apply app_inj_tail in E. destruct E as [E <-].
          destruct l2' as [|y l2 _] using rev_ind.
          + exists []. reflexivity.
          + rewrite app_assoc in E. apply app_inj_tail in E. destruct E as [E <-].
            destruct (Hs _ _ _ _ _ _ E Hb Hp) as (l3 & ->). eexists. reflexivity. }
      destruct Hops as [-> | ->]; cbn [apply_uops apply_uop]; rewrite Hc; cbn [fst];
        apply (uops_ind clk (fun s => stops h (s_log s))); auto; intros; now apply stops_uop.
    - apply (uops_ind clk (fun s => stops h (s_log s))); [intros; now apply stops_uop|].
      rewrite El. intros l1 due prio seq now' l2 E Hb Hp.
      destruct l2 as [|x l2' _] using rev_ind.
      + rewrite app_nil_r in E. exfalso. apply D. rewrite <- E, <- El, Eb in Hb. cbn in Hb.
        split; auto. apply app_inj_tail in E. destruct E as [-> _]. exact Hp.
      + rewrite app_assoc in E. apply app_inj_tail in E. destruct E as [E ->].
        destruct (Hs _ _ _ _ _ _ E Hb Hp) as (l3 & ->). eexists. reflexivity.
  Qed.

  Lemma stops_history h ops : stops h (s_log (history clk beh ops)).
  Proof.
    unfold history.
    assert (G : forall s, inv clk s /\ stops h (s_log s) ->
                inv clk (fold_left (apply_hop clk beh) ops s) /\
                stops h (s_log (fold_left (apply_hop clk beh) ops s))).
    { induction ops as [|o ops IH]; cbn; intros s [I Hs]; auto. apply IH. destruct o; cbn.
      - split; [now apply inv_uop|now apply stops_uop].
      - split; [now apply inv_poll|].
        assert (Hr : inv clk (fst (run_scheduler clk beh fuel s)) /\
                     stops h (s_log (fst (run_scheduler clk beh fuel s)))).
        { apply (run_step clk beh (fun s => inv clk s /\ stops h (s_log s))); auto.
          - intros s2 [I2 Hs2]. split; [now apply inv_read|exact Hs2].
          - intros s2 e q now [I2 Hs2] Eq Hd Hn. split; [eapply inv_exec; eauto|eapply stops_exec; eauto]. }
        destruct Hr as [_ Hr]. unfold poll.
        destruct (run_scheduler clk beh fuel s) as [s2 []]; exact Hr. }
    apply G. split; [apply inv_new|]. cbn. intros l1 due prio seq now l2 E.
    destruct l1; discriminate.
  Qed.

  Lemma self_removal ops h t p l1 due prio seq now l2 :
    s_log (history clk beh ops) = (l1 ++ [ORun h due prio seq now]) ++ l2 ->
    In (OPeriodic h t p) l1 ->
    self_stopping h (fst (beh (l1 ++ [ORun h due prio seq now]))) ->
    runs h l2 = [].
  Proof.
    intros E Hp Hb.
    destruct (stops_history h ops _ _ _ _ _ _ E Hb (ex_intro _ t (ex_intro _ p Hp))) as (l3 & ->). cbn. eapply removed_stops with (l1 := l1 ++ [ORun h due prio seq now]); eauto.
  Qed.

  (** ** Order *)

  Record bound (x : event action) (s : sched) : Prop := {
    b_all : Forall (ev_lt x) (s_queue s);
    b_seq : (ev_seq x < s_seq s)%nat;
    b_time : ev_time x <= clk (s_reads s);
    b_prio : ev_prio x <= 1;
    b_pos : Forall (fun e => match ev_act e with Every _ p => 0 < p | _ => True end) (s_queue s)
  }.

  Lemma run_keys_app l1 l2 : run_keys (l1 ++ l2) = run_keys l1 ++ run_keys l2.
  Proof. induction l1 as [|o l1 IH]; cbn; auto. destruct o; cbn; congruence. Qed.

  Definition pos (s : sched) : Prop :=
    Forall (fun e => match ev_act e with Every _ p => 0 < p | _ => True end) (s_queue s).

  Lemma cancel_handle_sub s h (P : event action -> Prop) : Forall P (s_queue s) ->
    Forall P (s_queue (fst (cancel_handle s h))).
  Proof.
    intros H. unfold cancel_handle. destruct (dget Nat.eqb (s_holders s) h); auto.
    destruct (cancel _ _) eqn:Ec; auto. cbn. apply cancel_sub in Ec.
    destruct Ec as (a & x & b & E & -> & _). rewrite E, Forall_app in H. destruct H as [H1 H2].
    inversion H2. apply Forall_app. auto.
  Qed.

  Lemma pos_uop s op : sane_op op -> pos s -> pos (fst (apply_uop clk s op)).
  Proof.
    intros Hop H. unfold pos in *. destruct op; cbn in *.
    - apply Forall_forall. intros x Hx. apply heappush_in in Hx. destruct Hx as [->|Hx]; cbn; auto.
      rewrite Forall_forall in H. exact (H x Hx).
    - apply Forall_forall. intros x Hx. apply heappush_in in Hx. destruct Hx as [->|Hx]; cbn; auto.
      rewrite Forall_forall in H. exact (H x Hx).
    - pose proof (cancel_handle_sub s h _ H) as H'. destruct (cancel_handle s h); auto.
    - now apply cancel_handle_sub.
  Qed.

  Lemma cancel_handle_rest s h : s_seq (fst (cancel_handle s h)) = s_seq s /\
    s_reads (fst (cancel_handle s h)) = s_reads s /\
    run_keys (s_log (fst (cancel_handle s h))) = run_keys (s_log s).
  Proof.
    unfold cancel_handle. destruct (dget Nat.eqb (s_holders s) h); auto.
    destruct (cancel _ _); cbn; auto. rewrite run_keys_app. cbn. now rewrite app_nil_r.
  Qed.

  Lemma uop_keys s op : run_keys (s_log (fst (apply_uop clk s op))) = run_keys (s_log s).
  Proof.
    destruct op; cbn; try (rewrite run_keys_app; cbn; apply app_nil_r).
    - pose proof (cancel_handle_rest s h) as H. destruct (cancel_handle s h); apply H.
    - apply cancel_handle_rest.
  Qed.

  Lemma bound_uop x s op : monotone clk -> sane_op op -> bound x s -> bound x (fst (apply_uop clk s op)).
  Proof.
    intros Hm Hop B. pose proof (pos_uop s op Hop (b_pos _ _ B)) as Hp.
    destruct B as [B1 B2 B3 B4 B5]. pose proof (Hm (s_reads s) (S (s_reads s)) ltac:(lia)) as Hmono.
    assert (Hc : forall h, bound x (fst (cancel_handle s h))).
    { intros h. destruct (cancel_handle_rest s h) as (E1 & E2 & _).
      constructor; rewrite ?E1, ?E2; auto; now apply cancel_handle_sub. }
    destruct op; cbn [apply_uop read fst] in *.
    - constructor; cbn; auto; try lia.
      apply Forall_forall. intros y Hy. apply heappush_in in Hy. destruct Hy as [->|Hy].
      + unfold ev_lt. cbn in *. lia.
      + rewrite Forall_forall in B1. auto.
    - constructor; cbn; auto; try lia.
      apply Forall_forall. intros y Hy. apply heappush_in in Hy. destruct Hy as [->|Hy].
      + unfold ev_lt. cbn in *. lia.
      + rewrite Forall_forall in B1. auto.
    - specialize (Hc h). destruct (cancel_handle s h); auto.
    - apply Hc.
  Qed.

  Definition key_of (x : event action) : run_key := RunKey (ev_time x) (ev_prio x) (ev_seq x) (task (ev_act x)).

  Lemma bound_started s e q : monotone clk -> inv clk s -> s_queue s = e :: q -> pos s ->
    ev_time e <= clk (pred (s_reads s)) -> (0 < s_reads s)%nat ->
    bound e (started e (clk (pred (s_reads s))) (pop s)).
  Proof.
    intros Hm I Eq Hpos Hdue Hr.
    assert (Hin : In e (s_queue s)) by (rewrite Eq; cbn; auto).
    destruct (i_sound _ _ I e Hin) as (k & Hk & He & Hact & Hd).
    assert (Hprio : ev_prio e <= 1).
    { unfold expected in He. destruct (k_dead k); [discriminate|]. destruct (k_periodic k).
      - assert (ev_prio e = 0) by congruence. lia.
      - destruct (k_runs k); [|discriminate]. assert (ev_prio e = 1) by congruence. lia. }
    pose proof (i_sorted _ _ I) as Ss. rewrite Eq in Ss. inversion Ss as [|? ? S1 S2]; subst.
    pose proof (i_seqs _ _ I) as Sq. rewrite Eq in Sq. inversion Sq as [|? ? Sq1 Sq2]; subst.
    pose proof (Hm (pred (s_reads s)) (s_reads s) ltac:(lia)) as Hmono.
    unfold pos in Hpos. rewrite Eq in Hpos. inversion Hpos as [|? ? Hp1 Hp2]; subst.
    unfold started. destruct (ev_act e) as [h|h p] eqn:Ea; constructor; cbn; rewrite ?Eq; cbn [tl]; auto; try lia.
    - apply Forall_forall. intros y Hy. apply heappush_in in Hy. destruct Hy as [->|Hy].
      + unfold ev_lt. cbn in *. lia.
      + rewrite Forall_forall in S2. auto.
    - apply Forall_forall. intros y Hy. apply heappush_in in Hy. destruct Hy as [->|Hy]; cbn; auto.
      rewrite Forall_forall in Hp2. now apply Hp2.
  Qed.

  Definition sane_beh : Prop := forall l, Forall sane_op (fst (beh l)).

  (** The runs of one poll are in order. *)
  Lemma run_order fuel : monotone clk -> sane_beh -> forall s, inv clk s -> pos s ->
    exists new, run_keys (s_log (fst (run_scheduler clk beh fuel s))) = run_keys (s_log s) ++ new /\
      StronglySorted before new /\
      (forall x, bound x s -> Forall (before (key_of x)) new).
  Proof.
    intros Hm Hsane. unfold run_scheduler. induction fuel as [|fuel IH]; cbn [run]; intros s I Hpos.
    { exists []. rewrite app_nil_r. repeat constructor. }
    destruct (s_queue s) as [|e q] eqn:Eq.
    { exists []. rewrite app_nil_r. repeat constructor. }
    cbn [read]. pose proof (inv_read _ _ I) as I1. cbn [read snd] in I1. set (s1 := Sched _ _ _ _ _ _) in *.
    destruct (Z.ltb_spec (clk (s_reads s)) (ev_time e)) as [L|L].
    { exists []. cbn. rewrite app_nil_r. repeat constructor. }
    assert (Hn : exists i, (i < s_reads s1)%nat /\ clk (s_reads s) = clk i) by (exists (s_reads s); cbn; lia).
    pose proof (inv_exec clk beh s1 e q _ I1 Eq L Hn) as I2.
    set (s2 := started e (clk (s_reads s)) (pop s1)).
    assert (B2 : bound e s2).
    { apply (bound_started s1 e q Hm I1 Eq Hpos L). cbn. lia. }
    assert (Hk2 : run_keys (s_log s2) = run_keys (s_log s) ++ [key_of e]).
    { unfold s2, started. destruct (ev_act e) eqn:Ea; cbn; rewrite run_keys_app; unfold key_of; rewrite Ea; reflexivity. }
    assert (B3 : bound e (fst (exec clk beh e (clk (s_reads s)) (pop s1)))).
    { rewrite exec_started. apply callback_ind; auto. intros s' op Hop HB. apply bound_uop; auto.
      pose proof (Hsane (s_log (started e (clk (s_reads s)) (pop s1)))) as F.
      rewrite Forall_forall in F. auto. }
    assert (Hk3 : run_keys (s_log (fst (exec clk beh e (clk (s_reads s)) (pop s1)))) =
                  run_keys (s_log s) ++ [key_of e]).
    { rewrite exec_started. apply (callback_ind clk beh (fun x => run_keys (s_log x) = run_keys (s_log s) ++ [key_of e])); auto.
      intros s' op _ E. now rewrite uop_keys. }
    assert (Hbe : forall x, bound x s -> before (key_of x) (key_of e)).
    { intros x Bx. pose proof (b_all _ _ Bx) as F. rewrite Eq in F. inversion F; subst. assumption. }
    destruct (exec clk beh e (clk (s_reads s)) (pop s1)) as [s3 [x|]]; cbn [fst] in *.
    - exists [key_of e]. split; auto. split; [repeat constructor|].
      intros y By. constructor; auto.
    - destruct (IH s3 I2 (b_pos _ _ B3)) as (new & E & Sn & Hb).
      exists (key_of e :: new). split; [rewrite E, Hk3, <- app_assoc; reflexivity|].
      specialize (Hb e B3). split; [constructor; auto|].
      intros y By. constructor; auto. eapply Forall_impl; [|exact Hb].
      specialize (Hbe y By). unfold before in *. intros; lia.
  Qed.

  Lemma pos_history ops : sane_beh -> Forall sane_hop ops -> pos (history clk beh ops).
  Proof.
    intros Hs. unfold history.
    assert (G : forall s, inv clk s -> pos s -> Forall sane_hop ops -> pos (fold_left (apply_hop clk beh) ops s)).
    { induction ops as [|o ops IH]; cbn; intros s I Hp F; auto. inversion F; subst.
      destruct o; cbn.
      - apply IH; auto; [now apply inv_uop|now apply pos_uop].
      - apply IH; auto; [now apply inv_poll|].
        assert (Hr : pos (fst (run_scheduler clk beh fuel s))).
        { apply (run_step clk beh pos); auto.
          intros s2 e q now Hp2 Eq _ _. rewrite exec_started.
          unfold pos in Hp2. rewrite Eq in Hp2. inversion Hp2; subst.
          apply (callback_ind clk beh pos).
          - intros s' op Hop. apply pos_uop. pose proof (Hs (s_log (started e now (pop s2)))) as F'.
            rewrite Forall_forall in F'. auto.
          - unfold pos, started. destruct (ev_act e) eqn:Ea; cbn; rewrite ?Eq; cbn; auto.
            apply Forall_forall. intros y Hy. apply heappush_in in Hy. destruct Hy as [->|Hy]; cbn; auto.
            rewrite Forall_forall in H4. now apply H4. }
        unfold poll. destruct (run_scheduler clk beh fuel s) as [s2 []]; exact Hr. }
    intros F. apply G; auto; [apply inv_new|constructor].
  Qed.

  Lemma poll_order ops fuel s' r : monotone clk -> sane_beh -> Forall sane_hop ops ->
    let s := history clk beh ops in
    poll clk beh fuel s = (s', r) ->
    exists new, run_keys (s_log s') = run_keys (s_log s) ++ new /\ StronglySorted before new.
  Proof.
    intros Hm Hs F s Hp.
    destruct (run_order fuel Hm Hs s (inv_history clk beh ops) (pos_history ops Hs F)) as (new & E & Sn & _).
    exists new. split; auto. rewrite <- E. unfold poll in Hp.
    destruct (run_scheduler clk beh fuel s) as [s2 []]; cbn in Hp; injection Hp as <- _; reflexivity.
  Qed.

  (** The order of deferred calls with equal due times is the order of their
      creation. *)
  Lemma deferred_seqs ops h h' t d t' d' due prio seq now due' prio' seq' now' : (h < h')%nat ->
    let l := s_log (history clk beh ops) in
    In (ODefer h t d) l -> In (ODefer h' t' d') l ->
    In (ORun h due prio seq now) l -> In (ORun h' due' prio' seq' now') l -> (seq < seq')%nat.
  Proof.
    intros L l Hd Hd' Hr Hr'. pose proof (inv_history clk beh ops) as I.
    destruct (in_status _ h _ I Hd eq_refl) as (k & Hk & T).
    destruct (in_status _ h' _ I Hd' eq_refl) as (k' & Hk' & T').
    destruct (t_defer _ _ _ T _ _ Hd) as (Ep & _). destruct (t_defer _ _ _ T' _ _ Hd') as (Ep' & _).
    destruct (i_held_run _ _ I _ _ _ _ _ Hr) as (e & He & <-); [intros; congruence|].
    destruct (i_held_run _ _ I _ _ _ _ _ Hr') as (e' & He' & <-); [intros; congruence|].
    eapply (i_held_seq _ _ I); eauto. intros; congruence.
  Qed.
End Top.

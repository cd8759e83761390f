(** Facts about the allocation server on the node monitor. *)
From Verif.Base Require Import Prelude.
From Verif.Model Require Import Monitor Allocator AllocSystem.
From Verif.Spec Require Import MonitorSpec AllocatorSpec AllocSystemSpec.
From Verif.Proofs Require Import MonitorFacts AllocatorFacts.
Local Open Scope N_scope.

Section Facts.
  Variable uid_of : N -> uid.
  Variables timeout min_retry : Z.
  Variable tie : list N -> nat.
  Variable tmo : Z.
  Variables lo hi : N.
  Notation mon_step := (mstep timeout min_retry).
  Notation step := (sys_step uid_of timeout min_retry tie tmo lo hi).
  Notation run := (sys_run uid_of timeout min_retry tie tmo lo hi).
  Notation look s n := (dget N.eqb (mo_registry s) n).
  Notation served' := (served tie tmo lo hi).

  (** The events the server gets from one event of the monitor. *)
  Definition news (e : mevent) (wall : Z) (o : mobs) : list aevent :=
    match o with
    | MNew n => [AMonitor false n None wall]
    | MUpdate n => [AMonitor false n (match e with MInfo _ _ i _ _ _ => Some (uid_of i) | _ => None end) wall]
    | _ => []
    end.

  Lemma tell_news e w outs s : fold_left (tell uid_of e w) outs s = served' s (flat_map (news e w) outs).
  Proof.
    revert s. induction outs as [|o outs IH]; intros s; [reflexivity|]. cbn [fold_left flat_map].
    rewrite served_app, IH. f_equal. destruct o; reflexivity.
  Qed.

  Definition outs_of (m : monitor) (e : mevent) : list mobs :=
    skipn (length (mo_log m)) (mo_log (mon_step m e)).

  Fixpoint for_server (m : monitor) (evs : list sevent) : list aevent :=
    match evs with
    | [] => []
    | SMonitor e w :: r => flat_map (news e w) (outs_of m e) ++ for_server (mon_step m e) r
    | SMessage x :: r => AMessage (with_discovered x (all_discovered m)) :: for_server m r
    end.

  Lemma run_split s evs :
    run s evs = Sys (fold_left mon_step (for_monitor evs) (sy_mon s)) (served' (sy_srv s) (for_server (sy_mon s) evs)).
  Proof.
    revert s. induction evs as [|e evs IH]; intros [m v]; [reflexivity|].
    unfold sys_run. cbn [fold_left]. fold (run (step (Sys m v) e) evs). rewrite IH.
    destruct e as [e w|x]; cbn [sys_step sy_mon sy_srv for_server for_monitor flat_map app fold_left].
    - rewrite tell_news, served_app. reflexivity.
    - reflexivity.
  Qed.

  Lemma outs_local m e : wf m -> wf (mon_step m e) /\
    forall n, exists rs as_, local timeout min_retry n (look m n) e (look (mon_step m e) n) rs as_ /\
      story n (outs_of m e) = rs.
  Proof.
    intros Hw. destruct (step_local timeout min_retry m e Hw) as (outs & Hw' & El & _ & Hl).
    split; [exact Hw'|]. intros n. destruct (Hl n) as (rs & as_ & H1 & H2 & _). exists rs, as_. split; [exact H1|].
    unfold outs_of. rewrite El, skipn_app, skipn_all, Nat.sub_diag. cbn. exact H2.
  Qed.

  Lemma in_purge e0 now r : In r (snd (purge timeout e0 now)) -> r = ROffline.
  Proof.
    unfold purge. destruct e0 as [x|]; [destruct (stale timeout x now)|]; cbn; intros H; try destruct H as [H|H];
      try destruct H; auto.
  Qed.

  Lemma new_heard m e n : wf m -> In (MNew n) (outs_of m e) -> heard_in n e <> [].
  Proof.
    intros Hw H. destruct (outs_local m e Hw) as (_ & Hl). destruct (Hl n) as (rs & as_ & Hloc & Hs).
    assert (Hr : In RNew rs).
    { rewrite <- Hs. apply in_flat_map. exists (MNew n). split; [exact H|]. cbn. rewrite N.eqb_refl. left. reflexivity. }
    clear Hs. inversion Hloc; subst; try (cbn; rewrite N.eqb_refl; discriminate).
    - destruct Hr.
    - apply in_purge in Hr. discriminate.
    - apply in_purge in Hr. discriminate.
  Qed.

  Lemma update_info m e n : wf m -> In (MUpdate n) (outs_of m e) ->
    exists up i ts now, e = MInfo n up i ts now true.
  Proof.
    intros Hw H. destruct (outs_local m e Hw) as (_ & Hl). destruct (Hl n) as (rs & as_ & Hloc & Hs).
    assert (Hr : In RUpdate rs).
    { rewrite <- Hs. apply in_flat_map. exists (MUpdate n). split; [exact H|]. cbn. rewrite N.eqb_refl. left. reflexivity. }
    clear Hs. inversion Hloc; subst.
    - destruct Hr.
    - apply in_purge in Hr. discriminate.
    - apply in_purge in Hr. discriminate.
    - apply in_app_or in Hr as [Hr|Hr]; [apply in_purge in Hr; discriminate|].
      subst news0. destruct e1; [destruct Hr|]. destruct Hr as [Hr|[]]. discriminate.
    - apply in_app_or in Hr as [Hr|Hr]; [apply in_purge in Hr; discriminate|].
      subst news0. destruct e1; [destruct Hr|]. destruct Hr as [Hr|[]]. discriminate.
    - destruct text; [eauto 6|]. rewrite app_nil_r in Hr. apply in_purge in Hr. discriminate.
    - apply in_purge in Hr. discriminate.
  Qed.

  (** A node that introduces itself is reported to the server. *)
  Lemma introduced_new m e n : wf m -> look m n = None -> introduces n e ->
    exists u w', In (AMonitor false n u w') (flat_map (news e w') (outs_of m e)) /\
                 forall w, In (AMonitor false n u w) (flat_map (news e w) (outs_of m e)).
  Proof.
    intros Hw H0 Hi. destruct (outs_local m e Hw) as (_ & Hl). destruct (Hl n) as (rs & as_ & Hloc & Hs).
    assert (Hin : In (MNew n) (outs_of m e) \/ In (MUpdate n) (outs_of m e)).
    { assert (Hr : In RNew rs \/ In RUpdate rs).
      { clear Hs. rewrite H0 in Hloc. inversion Hloc; subst; cbn in Hi; try tauto.
        - cbn in *. destruct e; cbn in *; try tauto.
          + subst n0. rewrite N.eqb_refl in *. discriminate.
          + destruct Hi as (-> & _). rewrite N.eqb_refl in *. discriminate.
        - left. left. reflexivity.
        - left. left. reflexivity.
        - destruct Hi as (_ & ->). right. left. reflexivity. }
      rewrite <- Hs in Hr. unfold story in Hr.
      destruct Hr as [Hr|Hr]; apply in_flat_map in Hr as (o & Ho & Hr); destruct o; cbn in Hr; try tauto;
        match type of Hr with In _ (if ?c then _ else _) => destruct c eqn:E end; try (destruct Hr; fail);
        apply N.eqb_eq in E as ->; destruct Hr as [Hr|[]]; try discriminate; auto. }
    destruct Hin as [H|H].
    - exists None, 0%Z. assert (G : forall w, In (AMonitor false n None w) (flat_map (news e w) (outs_of m e))).
      { intros w. apply in_flat_map. exists (MNew n). split; [exact H|]. left. reflexivity. }
      auto.
    - eexists _, 0%Z. assert (G : forall w, In (AMonitor false n
          (match e with MInfo _ _ i _ _ _ => Some (uid_of i) | _ => None end) w) (flat_map (news e w) (outs_of m e))).
      { intros w. apply in_flat_map. exists (MUpdate n). split; [exact H|]. left. reflexivity. }
      split; [apply G|exact G].
  Qed.

  Lemma unheard_unlisted m e n : wf m -> look m n = None -> heard_in n e = [] -> look (mon_step m e) n = None.
  Proof.
    intros Hw H0 Hh. destruct (outs_local m e Hw) as (_ & Hl). destruct (Hl n) as (rs & as_ & Hloc & _).
    rewrite H0 in Hloc. remember (look (mon_step m e) n) as r. clear Heqr Hl.
    inversion Hloc; subst; try reflexivity; cbn in Hh; rewrite N.eqb_refl in Hh; discriminate.
  Qed.

  Lemma introduced_reported evs m n : wf m -> look m n = None -> came_introduced n (for_monitor evs) ->
    exists u w, In (AMonitor false n u w) (for_server m evs).
  Proof.
    revert m. induction evs as [|e evs IH]; intros m Hw H0 (a & x & b & E & Ha & Hx).
    { destruct a; discriminate. }
    destruct e as [e w|y]; cbn [for_monitor flat_map app for_server] in *.
    - fold (for_monitor evs) in E. destruct a as [|e' a]; cbn [app] in E.
      + injection E as -> _. destruct (introduced_new m x n Hw H0 Hx) as (u & _ & _ & G).
        exists u, w. apply in_or_app. left. apply G.
      + injection E as <- E. cbn in Ha. apply app_eq_nil in Ha as (Ha1 & Ha2).
        destruct (outs_local m e Hw) as (Hw' & _).
        destruct (IH (mon_step m e) Hw' (unheard_unlisted m e n Hw H0 Ha1)) as (u & w' & G).
        { exists a, x, b. auto. }
        exists u, w'. apply in_or_app. right. exact G.
    - destruct (IH m Hw H0) as (u & w & G); [exists a, x, b; auto|]. exists u, w. right. exact G.
  Qed.

  (** What the server is told comes from what was heard. *)
  Lemma told_from evs m o n u w : wf m -> In (AMonitor o n u w) (for_server m evs) ->
    o = false /\ (exists e, In e (for_monitor evs) /\ heard_in n e <> []) /\
    (forall v, u = Some v -> exists up i ts now, In (MInfo n up i ts now true) (for_monitor evs) /\ uid_of i = v).
  Proof.
    revert m. induction evs as [|e evs IH]; intros m Hw H; [destruct H|].
    destruct e as [e w'|y]; cbn [for_monitor flat_map app for_server] in *; fold (for_monitor evs).
    - apply in_app_or in H as [H|H].
      + apply in_flat_map in H as (x & Hx & H). destruct x; cbn in H; try tauto; destruct H as [H|[]]; injection H as <- <- <- <-.
        * split; [reflexivity|]. split; [|discriminate]. exists e. split; [left; reflexivity|].
          apply (new_heard m e n0 Hw Hx).
        * destruct (update_info m e n0 Hw Hx) as (up & i & ts & now & ->). split; [reflexivity|]. split.
          -- eexists. split; [left; reflexivity|]. cbn. rewrite N.eqb_refl. discriminate.
          -- intros v [= <-]. exists up, i, ts, now. split; [left; reflexivity|reflexivity].
      + destruct (outs_local m e Hw) as (Hw' & _).
        destruct (IH (mon_step m e) Hw' H) as (H1 & (x & H2 & H3) & H4). split; [exact H1|]. split.
        * exists x. split; [right; exact H2|exact H3].
        * intros v Hv. destruct (H4 v Hv) as (up & i & ts & now & Hi & Hu). exists up, i, ts, now.
          split; [right; exact Hi|exact Hu].
    - destruct H as [H|H]; [discriminate|]. exact (IH m Hw H).
  Qed.

  Lemma msg_from evs m x : In (AMessage x) (for_server m evs) -> exists y, In (SMessage y) evs /\ am_node x = am_node y.
  Proof.
    revert m. induction evs as [|e evs IH]; intros m H; [destruct H|].
    destruct e as [e w'|y]; cbn [for_server] in H.
    - apply in_app_or in H as [H|H].
      + apply in_flat_map in H as (o & _ & H). destruct o; cbn in H; try tauto; destruct H as [H|[]]; discriminate.
      + destruct (IH _ H) as (z & Hz & E). exists z. split; [right; exact Hz|exact E].
    - destruct H as [H|H].
      + injection H as <-. exists y. split; [left; reflexivity|reflexivity].
      + destruct (IH _ H) as (z & Hz & E). exists z. split; [right; exact Hz|exact E].
  Qed.

  Lemma good_for_server evs m : wf m -> seven_bits (for_monitor evs) -> seven_bits_asked evs ->
    Forall good_event (for_server m evs).
  Proof.
    intros Hw Hm Hs. apply Forall_forall. intros [x|o n u w] H; cbn.
    - apply msg_from in H as (y & Hy & ->). apply Hs. exact Hy.
    - apply (told_from evs m) in H as (_ & (e & He & Hh) & _); [|exact Hw]. exact (Hm e n He Hh).
  Qed.

  (** Reports get into the log of the server, and come from nowhere else. *)
  Lemma report_logged s evs n u w : In (AMonitor false n u w) evs -> In (OReport n u) (sv_log (served' s evs)).
  Proof.
    intros H. apply in_split in H as (a & b & ->).
    replace (a ++ AMonitor false n u w :: b) with ((a ++ [AMonitor false n u w]) ++ b) by (rewrite <- app_assoc; reflexivity).
    rewrite served_app, served_snoc.
    destruct (log_grows tie tmo lo hi (astep tie tmo lo hi (served' s a) (AMonitor false n u w)) b) as (l & ->).
    apply in_or_app. left. cbn. apply in_or_app. right. left. reflexivity.
  Qed.

  Lemma logged_report t q ts evs n u : In (OReport n u) (sv_log (served' (Server t q ts []) evs)) ->
    exists w, In (AMonitor false n u w) evs.
  Proof.
    induction evs as [|e evs IH] using rev_ind; [intros []|]. rewrite served_snoc. intros H.
    assert (C : In (OReport n u) (sv_log (served' (Server t q ts []) evs)) \/ exists w, e = AMonitor false n u w).
    { destruct (step_outcome tie tmo lo hi (served' (Server t q ts []) evs) e); cbn [sv_log] in H; auto;
        apply in_app_or in H as [H|[H|[]]]; auto; try discriminate. injection H as <- <-. eauto. }
    destruct C as [C|(w & ->)].
    - destruct (IH C) as (w & Hw). exists w. apply in_or_app. auto.
    - exists w. apply in_or_app. right. left. reflexivity.
  Qed.

  (** The registry of the monitor. *)
  Lemma listed_info n evs : match look (monitored timeout min_retry evs) n with
    | Some e => match en_info e with
                | Some i => exists up ts now text, In (MInfo n up i ts now text) evs
                | None => True end
    | None => True end.
  Proof.
    apply (run_ind timeout min_retry n (fun evs e _ _ => match e with
      | Some e => match en_info e with
                  | Some i => exists up ts now text, In (MInfo n up i ts now text) evs
                  | None => True end
      | None => True end)); [exact I|].
    clear evs. intros evs e e0 _ _ e1 rs as_ H Hl.
    set (Q := fun (l : list mevent) (x : option entry) => match x with
      | Some e => match en_info e with
                  | Some i => exists up ts now text, In (MInfo n up i ts now text) l
                  | None => True end
      | None => True end). change (Q (evs ++ [e]) e1). change (Q evs e0) in H.
    assert (G : forall x, Q evs x -> Q (evs ++ [e]) x).
    { intros [x|]; [|auto]. cbn. destruct (en_info x); [|auto]. intros (up & ts & now & text & Hi).
      exists up, ts, now, text. apply in_or_app. auto. }
    assert (P : forall now, Q evs (fst (purge timeout e0 now))).
    { intros now. destruct e0 as [x|]; cbn; [|exact I]. destruct (stale timeout x now); [exact I|exact H]. }
    assert (B : forall now, Q evs (Some (base (fst (purge timeout e0 now))))).
    { intros now. specialize (P now). destruct (fst (purge timeout e0 now)); [exact P|exact I]. }
    inversion Hl; subst.
    - apply G. exact H.
    - apply G. apply P.
    - apply G. apply P.
    - apply G. specialize (B now). unfold Q in B |- *. fold e2 in B. clear - B. unfold e3, update_from_status.
      destruct (match en_uptime (base e2) with Some u => up <? u | None => false end); [exact I|exact B].
    - exact I.
    - cbn. exists up, ts, now, text. apply in_or_app. right. left. reflexivity.
    - apply G. exact (B now).
  Qed.

  Lemma listed_heard n evs : look (monitored timeout min_retry evs) n <> None -> exists e, In e evs /\ heard_in n e <> [].
  Proof.
    intros H. pose proof (run_fresh timeout min_retry n evs) as F. unfold fresh_inv in F.
    destruct (look _ n) as [e|]; [|congruence]. apply last_opt_In in F. apply in_flat_map in F as (x & Hx & Hi).
    exists x. split; [exact Hx|]. intros E. rewrite E in Hi. destruct Hi.
  Qed.

  (** The table at the start. *)
  Lemma start_row db own ou w known n u ts : good_table db -> NoDup (map (fun e : N * option uid * Z => fst (fst e)) known) ->
    dget N.eqb (sv_table (start db own ou w known)) n = Some (Some u, ts) ->
    (exists w', In (n, (Some u, w')) db) \/ (n = own /\ u = ou) \/ (exists w', In (n, Some u, w') known).
  Proof.
    intros Hd Hk H.
    destruct (in_dec N.eq_dec n (map (fun e : N * option uid * Z => fst (fst e)) known)) as [Hi|Hi].
    - apply in_map_iff in Hi as (e & <- & He). right. right.
      destruct (start_known (table_set db (Some ou) own w) known e Hk He) as (_ & Hu).
      unfold get_unique_id in Hu. cbn in H. rewrite H in Hu. symmetry in Hu. apply stored_Some in Hu as (Hu & _).
      exists (snd e). destruct e as [[a b] c]. cbn in *. subst b. exact He.
    - destruct (N.eq_dec n own) as [->|Ho].
      + rewrite (start_own tie _ _ _ _ _ Hi) in H. assert (H' : stored (Some ou) = Some u) by congruence. apply stored_Some in H' as (H' & _).
        injection H' as ->. right. left. auto.
      + rewrite (start_other tie _ _ _ _ _ _ Ho Hi) in H. left. exists ts. apply (dget_In _ Neqb_spec). exact H.
  Qed.

  Lemma belongs_in t l n u : belongs t l n = Some u -> In (Some u) (said t l n).
  Proof.
    unfold belongs. intros H. destruct (flat_map _ _) as [|x r] eqn:E; [discriminate|]. injection H as ->.
    assert (Hi : In u (u :: r)) by (left; reflexivity). rewrite <- E in Hi.
    apply in_flat_map in Hi as ([v|] & Hv & Hi); [|destruct Hi]. destruct (identifies v); [|destruct Hi].
    destruct Hi as [->|[]]. exact Hv.
  Qed.

  Lemma said_row_or t l n u : In (Some u) (said t l n) -> In (Some u) (row_at t n) \/ In (OReport n (Some u)) l \/ In (OAlloc n u) l.
  Proof.
    unfold said. intros H. apply in_app_or in H as [H|H]; [auto|]. right. unfold said_at in H.
    apply in_flat_map in H as (o & Ho & H). destruct o; cbn in H; try tauto;
      match type of H with In _ (if ?c then _ else _) => destruct c eqn:E end; try (destruct H; fail);
      apply N.eqb_eq in E as ->; destruct H as [H|[]]; [injection H as ->|subst u0]; auto.
  Qed.

  Lemma nodes_nodup evs0 w :
    NoDup (map (fun e : N * option uid * Z => fst (fst e)) (listed_nodes uid_of (monitored timeout min_retry evs0) w)).
  Proof. unfold listed_nodes. rewrite map_map. cbn. apply run_wf. Qed.

  Lemma mon_app evs0 evs : fold_left mon_step evs (monitored timeout min_retry evs0) = monitored timeout min_retry (evs0 ++ evs).
  Proof. unfold monitored. rewrite fold_left_app. reflexivity. Qed.

  Notation began := (sys_start uid_of timeout min_retry).

  Theorem in_use_kept db own ou w evs0 evs m n u :
    hi <= 127 -> good_table db -> own <= 127 -> seven_bits (evs0 ++ for_monitor evs) ->
    seven_bits_asked evs -> am_node m <= 127 ->
    let s := run (began db own ou w evs0) evs in
    sv_log (sy_srv (step s (SMessage m))) = sv_log (sy_srv s) ++ [OAlloc n u] ->
    n = own \/ listed (monitored timeout min_retry evs0) n = true \/ came_introduced n (for_monitor evs) ->
    was_at uid_of db own ou (evs0 ++ for_monitor evs) (sv_log (sy_srv s)) n u.
  Proof.
    intros Hh Hd Ho Hb Hs Hm. cbn zeta. intros Hal Hin.
    set (mon0 := monitored timeout min_retry evs0) in *.
    set (known := listed_nodes uid_of mon0 w).
    set (t := sv_table (start db own ou w known)).
    assert (W0 : wf mon0) by apply run_wf.
    assert (Hk : Forall (fun e : N * option uid * Z => fst (fst e) <= 127) known).
    { apply Forall_forall. intros e He. apply in_map_iff in He as ([k x] & <- & Hr). cbn.
      destruct (listed_heard k evs0) as (z & Hz & Hz').
      { change (look mon0 k <> None). rewrite (dget_nodup_In _ Neqb_spec _ _ _ W0 Hr). discriminate. }
      apply (Hb z k); [apply in_or_app; auto|exact Hz']. }
    pose proof (good_start db own ou w known Hd Ho Hk) as Hg.
    assert (Es : forall ev, run (began db own ou w evs0) ev =
              Sys (fold_left mon_step (for_monitor ev) mon0) (served' (Server t [] 0 []) (for_server mon0 ev))).
    { intros ev. rewrite run_split. reflexivity. }
    set (aes := for_server mon0 evs).
    assert (Hga : Forall good_event aes).
    { apply good_for_server; auto. intros e k He. apply Hb. apply in_or_app. auto. }
    assert (Hgl : Forall good_event (for_server mon0 (evs ++ [SMessage m]))).
    { apply good_for_server; auto.
      - unfold for_monitor. rewrite flat_map_app. cbn. rewrite app_nil_r. intros e k He. apply Hb. apply in_or_app. auto.
      - intros y Hy. apply in_app_or in Hy as [Hy|[[= <-]|[]]]; auto. }
    replace (step (run (began db own ou w evs0) evs) (SMessage m))
      with (run (began db own ou w evs0) (evs ++ [SMessage m])) in Hal
      by (unfold sys_run; rewrite fold_left_app; reflexivity).
    rewrite !Es in *. cbn [sy_srv] in *. fold aes in Hal |- *. set (l := sv_log (served' (Server t [] 0 []) aes)) in *.
    destruct (alloc_owner tie tmo lo hi t [] 0%Z _ n u l [] Hh Hg Hgl Hal) as [E|E].
    - exfalso. unfold said in E. apply app_eq_nil in E as (E1 & E2).
      rewrite row_at_get in E1 by apply Hg.
      assert (Kn : forall e, In e known -> fst (fst e) <> n).
      { intros e He <-. destruct (start_known (table_set db (Some ou) own w) known e (nodes_nodup evs0 w) He) as (Ka & _).
        unfold is_known, dmem in Ka. change (match dget N.eqb t (fst (fst e)) with Some _ => true | None => false end = true) in Ka.
        destruct (dget N.eqb t (fst (fst e))) as [[? ?]|]; discriminate. }
      assert (Kl : look mon0 n = None).
      { destruct (look mon0 n) as [x|] eqn:E; [|reflexivity]. exfalso. apply (dget_In _ Neqb_spec) in E.
        apply (Kn (n, option_map uid_of (en_info x), w)); [|reflexivity]. apply in_map_iff. exists (n, x). auto. }
      destruct Hin as [->|[Hin|Hin]].
      + assert (Hno : ~ In own (map (fun e : N * option uid * Z => fst (fst e)) known)).
        { intros H. apply in_map_iff in H as (e & Ee & He). exact (Kn e He Ee). }
        unfold t in E1. rewrite (start_own tie _ _ _ _ _ Hno) in E1. discriminate.
      + unfold listed, dmem in Hin. rewrite Kl in Hin. discriminate.
      + destruct (introduced_reported evs mon0 n W0 Kl Hin) as (v & w' & Hv).
        apply (report_logged (Server t [] 0 [])) in Hv. fold aes l in Hv.
        assert (Hi : In v (said_at n l)).
        { apply in_flat_map. exists (OReport n v). split; [exact Hv|]. rewrite N.eqb_refl. left. reflexivity. }
        rewrite E2 in Hi. destruct Hi.
    - apply belongs_in in E. apply said_row_or in E as [E|[E|E]].
      + rewrite row_at_get in E by apply Hg. destruct (dget N.eqb t n) as [[v ts]|] eqn:Eg; [|destruct E].
        destruct E as [->|[]]. destruct (start_row _ _ _ _ _ _ _ _ Hd (nodes_nodup evs0 w) Eg) as [H|[H|(w' & H)]].
        * left. exact H.
        * right. left. exact H.
        * right. right. left. apply in_map_iff in H as ([k x] & Ex & Hr). cbn in Ex. injection Ex as -> Ex _.
          pose proof (listed_info n evs0) as Li. fold mon0 in Li.
          rewrite (dget_nodup_In _ Neqb_spec _ _ _ W0 Hr) in Li. destruct (en_info x) as [i|]; [|discriminate].
          destruct Li as (up & ts' & now & text & Li). exists up, i, ts', now, text. split; [apply in_or_app; auto|].
          cbn in Ex. congruence.
      + apply logged_report in E as (w' & E). apply (told_from evs mon0) in E as (_ & _ & E); [|exact W0].
        destruct (E u eq_refl) as (up & i & ts & now & Hi & Hu). right. right. left.
        exists up, i, ts, now, true. split; [apply in_or_app; auto|exact Hu].
      + right. right. right. exact E.
  Qed.

  (** Nothing is allocated while a node may still tell who it is. *)
  Lemma retries_asks n evs : match look (monitored timeout min_retry evs) n with
    | Some e => (10 <= en_retries e + length (asks n (mo_log (monitored timeout min_retry evs))))%nat
    | None => True end.
  Proof.
    apply (run_ind timeout min_retry n (fun _ e _ as_ => match e with
      | Some e => (10 <= en_retries e + length as_)%nat | None => True end)); [exact I|].
    clear evs. intros evs e e0 _ as0 e1 rs as_ H Hl.
    assert (P : forall now, (10 <= en_retries (base (fst (purge timeout e0 now))) + length as0)%nat).
    { intros now. destruct e0 as [x|]; cbn; [|unfold max_retries; lia]. destruct (stale timeout x now); cbn; unfold max_retries; lia. }
    assert (U : forall x up ts, (en_retries x <= en_retries (update_from_status x up ts) \/
                  en_retries (update_from_status x up ts) = 10)%nat).
    { intros x up ts. unfold update_from_status, max_retries.
      destruct (match en_uptime x with Some _ => _ | None => _ end); cbn; lia. }
    rewrite app_length. inversion Hl; subst.
    - destruct e1; cbn [length]; [lia|exact I].
    - destruct e0 as [x|]; cbn; [|exact I]. destruct (stale timeout x (now n)); cbn; [exact I|lia].
    - destruct e0 as [x|]; cbn; [|exact I]. destruct (stale timeout x now); cbn; [exact I|lia].
    - specialize (P now). pose proof (U (base (fst (purge timeout e0 now))) up ts) as V.
      change (update_from_status (base (fst (purge timeout e0 now))) up ts) with e3 in V. cbn [length]. lia.
    - specialize (P now). cbn [en_retries length].
      match goal with R : en_retries _ = S r |- _ => rename R into Er end.
      destruct (U (base (fst (purge timeout e0 now))) up ts) as [V|V]; subst e3 e2; rewrite Er in V; lia.
    - cbn [en_retries update_from_info]. unfold max_retries. lia.
    - cbn [en_retries]. unfold max_retries. lia.
  Qed.

  Theorem allocation_waits db own ou w evs0 evs m n u k :
    let s := run (began db own ou w evs0) evs in
    sv_log (sy_srv (step s (SMessage m))) = sv_log (sy_srv s) ++ [OAlloc n u] ->
    listed (sy_mon s) k = true ->
    (exists up i ts now text, In (MInfo k up i ts now text) (evs0 ++ for_monitor evs)) \/
    (10 <= length (asks k (mo_log (sy_mon s))))%nat.
  Proof.
    cbn zeta. set (s := run (began db own ou w evs0) evs). intros Hal Hli.
    assert (Em : sy_mon s = monitored timeout min_retry (evs0 ++ for_monitor evs)).
    { unfold s. rewrite run_split. cbn. apply mon_app. }
    assert (Ha : all_discovered (sy_mon s) = true).
    { destruct (all_discovered (sy_mon s)) eqn:E; [reflexivity|]. exfalso. cbn [sys_step sy_srv] in Hal.
      unfold on_message in Hal. cbn [with_discovered am_source am_discovered] in Hal. rewrite E in Hal.
      destruct (am_source m =? 0); cbn [negb] in Hal;
        apply (f_equal (@length _)) in Hal; rewrite app_length in Hal; cbn in Hal; lia. }
    unfold listed, dmem in Hli. pose proof (retries_asks k (evs0 ++ for_monitor evs)) as R.
    pose proof (listed_info k (evs0 ++ for_monitor evs)) as Li. rewrite Em in *.
    destruct (look _ k) as [x|] eqn:Ex; [|discriminate].
    unfold all_discovered in Ha. rewrite forallb_forall in Ha. apply (dget_In _ Neqb_spec) in Ex.
    specialize (Ha _ Ex). cbn [snd] in Ha. unfold discovered in Ha. destruct (en_info x) as [i|].
    - left. destruct Li as (up & ts & now & text & Li). eauto 8.
    - right. apply Nat.leb_le in Ha. lia.
  Qed.
End Facts.

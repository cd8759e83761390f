(** Facts about the node monitor. *)
From Coq Require Import Sorted.
From Verif.Base Require Import Prelude.
From Verif.Model Require Import Monitor.
From Verif.Spec Require Import MonitorSpec.
Local Open Scope Z_scope.

Lemma Neqb_spec a b : (a =? b)%N = true <-> a = b.
Proof. apply N.eqb_eq. Qed.

Lemma last_opt_snoc {A} (l : list A) x : last_opt (l ++ [x]) = Some x.
Proof.
  induction l as [|a l IH]; [reflexivity|]. cbn. destruct (l ++ [x]) eqn:E; [destruct l; discriminate|].
  exact IH.
Qed.

Lemma last_opt_app {A} (l l' : list A) : last_opt (l ++ l') = match last_opt l' with Some x => Some x | None => last_opt l end.
Proof.
  destruct l' as [|x r] using rev_ind; [cbn; rewrite app_nil_r; reflexivity|].
  rewrite app_assoc, !last_opt_snoc. reflexivity.
Qed.

Lemma last_opt_In {A} (l : list A) x : last_opt l = Some x -> In x l.
Proof.
  destruct l as [|y r] using rev_ind; [discriminate|]. rewrite last_opt_snoc. intros [= ->].
  apply in_or_app. right. left. reflexivity.
Qed.

Section Facts.
  Variables timeout min_retry : Z.
  Notation step := (mstep timeout min_retry).
  Notation run := (monitored timeout min_retry).
  Notation reg s := (mo_registry s).
  Notation look s n := (dget N.eqb (mo_registry s) n).

  Lemma run_snoc evs e : run (evs ++ [e]) = step (run evs) e.
  Proof. unfold monitored. rewrite fold_left_app. reflexivity. Qed.

  Lemma look_put_same s n e : look (put s n e) n = Some e.
  Proof. apply (dget_dset_same _ Neqb_spec). Qed.
  Lemma look_put_other s n m e : n <> m -> look (put s n e) m = look s m.
  Proof. intros H. apply (dget_dset_other _ Neqb_spec). exact H. Qed.
  Lemma look_drop_other s n m : n <> m -> look (drop s n) m = look s m.
  Proof. intros H. apply (dget_ddel_other _ Neqb_spec). exact H. Qed.

  Definition wf (s : monitor) : Prop := NoDup (map fst (reg s)).

  Lemma look_drop_same s n : wf s -> look (drop s n) n = None.
  Proof. intros H. apply (dget_ddel_same _ Neqb_spec). exact H. Qed.
  Lemma wf_put s n e : wf s -> wf (put s n e).
  Proof. intros H. apply (dset_nodup _ Neqb_spec). exact H. Qed.
  Lemma wf_drop s n : wf s -> wf (drop s n).
  Proof. intros H. apply ddel_nodup. exact H. Qed.

  (** The loop of [_remove_stale]. *)
  Lemma remove_loop now l s : wf s -> NoDup (map fst l) ->
    (forall r, In r l -> look s (fst r) = Some (snd r)) ->
    let s' := fold_left (fun s (r : N * entry) =>
                 if stale timeout (snd r) (now (fst r)) then say (drop s (fst r)) (MOffline (fst r)) else s) l s in
    wf s' /\
    (forall n, look s' n = match dget N.eqb l n with
                           | Some e => if stale timeout e (now n) then None else look s n
                           | None => look s n end) /\
    exists outs, mo_log s' = mo_log s ++ outs /\
      forall n, story n outs = match dget N.eqb l n with
                               | Some e => if stale timeout e (now n) then [ROffline] else []
                               | None => [] end /\ asks n outs = [] /\
                 (forall o, In o outs -> exists n', o = MOffline n').
  Proof.
    revert s. induction l as [|[k e] l IH]; intros s Hw Hd Hl.
    { cbn. split; [exact Hw|]. split; [reflexivity|]. exists []. rewrite app_nil_r.
      split; [reflexivity|]. intros n. repeat split; auto. intros o []. }
    inversion Hd as [|? ? Hn Hd']; subst. cbn [fold_left fst snd].
    destruct (stale timeout e (now k)) eqn:Es.
    - destruct (IH (say (drop s k) (MOffline k))) as (Hw' & Hlook & outs & Ho & Hs); [|exact Hd'| |].
      { apply wf_drop. exact Hw. }
      { intros r Hr. cbn. rewrite (dget_ddel_other _ Neqb_spec); [apply Hl; right; exact Hr|].
        intros ->. apply Hn. apply in_map. exact Hr. }
      cbn zeta in *. split; [exact Hw'|]. split.
      + intros n. rewrite Hlook. cbn [mo_registry say dget]. destruct (n =? k)%N eqn:E.
        * apply N.eqb_eq in E as ->. rewrite (proj2 (dget_None_keys _ Neqb_spec l k) Hn), Es.
          apply look_drop_same. exact Hw.
        * unfold drop. cbn. rewrite (dget_ddel_other _ Neqb_spec) by lia. reflexivity.
      + exists (MOffline k :: outs). split; [rewrite Ho; cbn; rewrite <- app_assoc; reflexivity|].
        intros n. destruct (Hs n) as (Hs1 & Hs2 & Hs3). cbn. rewrite (N.eqb_sym n k). split; [|split].
        * fold (story n outs). rewrite Hs1. destruct (k =? n)%N eqn:E; [|reflexivity].
          apply N.eqb_eq in E as ->. rewrite (proj2 (dget_None_keys _ Neqb_spec l n) Hn), Es. reflexivity.
        * exact Hs2.
        * intros o [<-|H]; eauto.
    - destruct (IH s) as (Hw' & Hlook & outs & Ho & Hs); [exact Hw|exact Hd'| |].
      { intros r Hr. apply Hl. right. exact Hr. }
      cbn zeta in *. split; [exact Hw'|]. split.
      + intros n. rewrite Hlook. cbn [dget]. destruct (n =? k)%N eqn:E; [|reflexivity].
        apply N.eqb_eq in E as ->. rewrite (proj2 (dget_None_keys _ Neqb_spec l k) Hn), Es. reflexivity.
      + exists outs. split; [exact Ho|]. intros n. destruct (Hs n) as (Hs1 & Hs2 & Hs3). split; [|auto].
        rewrite Hs1. cbn [dget]. destruct (n =? k)%N eqn:E; [|reflexivity].
        apply N.eqb_eq in E as ->. rewrite (proj2 (dget_None_keys _ Neqb_spec l k) Hn), Es. reflexivity.
  Qed.

  (** What a step does to the entry of node [n] and to its part of the log. *)
  Definition purge (e : option entry) (now : Z) : option entry * list report :=
    match e with
    | Some x => if stale timeout x now then (None, [ROffline]) else (Some x, [])
    | None => (None, [])
    end.
  Definition base (e : option entry) : entry := match e with Some x => x | None => new_entry end.

  Inductive local (n : N) (e0 : option entry) : mevent -> option entry -> list report -> list Z -> Prop :=
  | l_other e : heard_in n e = [] -> reading_in n e = [] -> local n e0 e e0 [] []
  | l_tick now : local n e0 (MTick now) (fst (purge e0 (now n))) (snd (purge e0 (now n))) []
  | l_get now : local n e0 (MGet n now) (fst (purge e0 now)) (snd (purge e0 now)) []
  | l_status up ts now anon :
      let e1 := fst (purge e0 now) in
      let e2 := update_from_status (base e1) up ts in
      let news := match e1 with Some _ => [] | None => [RNew] end in
      (discovered e2 = true \/ anon = true \/ ts - en_asked e2 <= min_retry) ->
      local n e0 (MStatus n up ts now anon) (Some e2) (snd (purge e0 now) ++ news) []
  | l_ask up ts now r :
      let e1 := fst (purge e0 now) in
      let e2 := update_from_status (base e1) up ts in
      let news := match e1 with Some _ => [] | None => [RNew] end in
      en_info e2 = None -> en_retries e2 = S r -> min_retry < ts - en_asked e2 ->
      local n e0 (MStatus n up ts now false) (Some (Entry (en_uptime e2) None ts r ts))
            (snd (purge e0 now) ++ news) [ts]
  | l_info up i ts now text :
      local n e0 (MInfo n up i ts now text)
            (Some (update_from_info (base (fst (purge e0 now))) up i ts))
            (snd (purge e0 now) ++ if text : bool then [RUpdate] else []) []
  | l_request ts now :
      let e1 := base (fst (purge e0 now)) in
      local n e0 (MRequest n ts now)
            (Some (Entry (en_uptime e1) (en_info e1) ts max_retries (en_asked e1)))
            (snd (purge e0 now)) [].

  Lemma en_ts_update e up ts : en_ts (update_from_status e up ts) = ts.
  Proof. unfold update_from_status. destruct (en_uptime e) as [u|]; [destruct (up <? u)%N|]; reflexivity. Qed.

  Lemma story_app n a b : story n (a ++ b) = story n a ++ story n b.
  Proof. apply flat_map_app. Qed.
  Lemma asks_app n a b : asks n (a ++ b) = asks n a ++ asks n b.
  Proof. apply flat_map_app. Qed.

  Definition no_assert (outs : list mobs) : Prop := ~ In (MRaise AssertionError) outs.

  (** [get] seen from node [n]. *)
  Lemma get_view s n now : wf s -> exists s' f outs,
    get timeout s n now = (s', f) /\ wf s' /\ f = look s' n /\
    mo_log s' = mo_log s ++ outs /\ no_assert outs /\
    (look s' n, story n outs) = purge (look s n) now /\ asks n outs = [] /\
    forall m, m <> n -> look s' m = look s m /\ story m outs = [] /\ asks m outs = [].
  Proof.
    intros Hw. unfold get. destruct (look s n) as [e|] eqn:E; cbn [purge].
    2:{ exists s, None, []. rewrite app_nil_r. rewrite E. repeat split; auto. intros []. }
    destruct (stale timeout e now).
    - exists (drop (say s (MOffline n)) n), None, [MOffline n]. split; [reflexivity|].
      assert (Hl : look (drop (say s (MOffline n)) n) n = None) by (apply look_drop_same; exact Hw).
      split; [apply wf_drop; exact Hw|]. split; [congruence|]. split; [reflexivity|].
      split; [intros [H|[]]; discriminate|]. split; [rewrite Hl; cbn; rewrite N.eqb_refl; reflexivity|].
      split; [reflexivity|]. intros m Hm. split; [apply (look_drop_other (say s (MOffline n))); congruence|].
      cbn. destruct (n =? m)%N eqn:En; [lia|auto].
    - exists s, (Some e), []. rewrite app_nil_r, E. repeat split; auto. intros [].
  Qed.

  Lemma step_local s e : wf s -> exists outs,
    wf (step s e) /\ mo_log (step s e) = mo_log s ++ MIn e :: outs /\ no_assert outs /\
    forall n, exists rs as_, local n (look s n) e (look (step s e) n) rs as_ /\
      story n outs = rs /\ asks n outs = as_.
  Proof.
    intros Hw. unfold mstep. set (s0 := say s (MIn e)). assert (Hw0 : wf s0) by exact Hw.
    assert (E0 : mo_log s0 = mo_log s ++ [MIn e]) by reflexivity.
    assert (L0 : forall n, look s0 n = look s n) by reflexivity. clearbody s0.
    assert (Hlog : forall l outs, l = mo_log s0 ++ outs -> l = mo_log s ++ MIn e :: outs).
    { intros l outs ->. rewrite E0, <- app_assoc. reflexivity. }
    destruct e as [k up ts now anon|k up i ts now text|k ts now|now|k now].
    - destruct (get_view s0 k now Hw0) as (s1 & f & outs & Eg & Hw1 & Ef & El & Ha & Hp & Hq & Ho).
      unfold on_status. rewrite Eg. set (e2 := update_from_status _ up ts).
      assert (Ef1 : f = fst (purge (look s k) now)) by (rewrite <- L0, <- Hp, Ef; reflexivity). clear Ef.
      set (news := match f with Some _ => [] | None => [MNew k] end).
      set (s2 := match f with Some _ => put s1 k e2 | None => say (put s1 k e2) (MNew k) end).
      assert (Hw2 : wf s2) by (subst s2; destruct f; apply (wf_put s1); exact Hw1).
      assert (L2 : look s2 k = Some e2) by (subst s2; destruct f; apply (look_put_same s1)).
      assert (O2 : forall m, m <> k -> look s2 m = look s m).
      { intros m Hm. destruct (Ho m Hm) as (Hm1 & _). rewrite <- L0, <- Hm1.
        subst s2; destruct f; apply (look_put_other s1); congruence. }
      assert (G2 : mo_log s2 = mo_log s0 ++ outs ++ news).
      { subst s2 news. destruct f; cbn; rewrite El, ?app_nil_r, ?app_assoc; reflexivity. }
      assert (N2 : no_assert (outs ++ news)).
      { intros H. apply in_app_or in H as [H|H]; [auto|]. subst news. destruct f; [destruct H|].
        destruct H as [H|[]]. discriminate. }
      assert (ES : forall m, story m (outs ++ news) =
                   if (k =? m)%N then snd (purge (look s k) now) ++
                         match f with Some _ => [] | None => [RNew] end else []).
      { intros m. rewrite story_app. destruct (k =? m)%N eqn:E.
        - apply N.eqb_eq in E as ->. rewrite <- L0, <- Hp. cbn [snd]. f_equal.
          subst news. destruct f; cbn; [reflexivity|rewrite N.eqb_refl; reflexivity].
        - destruct (Ho m) as (_ & Hm2 & _); [lia|]. rewrite Hm2. subst news. destruct f; cbn; [|rewrite E]; reflexivity. }
      assert (EA : forall m, asks m (outs ++ news) = []).
      { intros m. rewrite asks_app. destruct (N.eq_dec m k) as [->|Hm]; [rewrite Hq|rewrite (proj2 (proj2 (Ho m Hm)))];
          subst news; destruct f; reflexivity. }
      assert (Ets : en_ts e2 = ts) by apply en_ts_update. rewrite Ets.
      assert (E2 : e2 = update_from_status (base (fst (purge (look s k) now))) up ts) by (subst e2; rewrite <- Ef1; reflexivity).
      assert (Hother : forall m, m <> k -> heard_in m (MStatus k up ts now anon) = [] /\
                                           reading_in m (MStatus k up ts now anon) = []).
      { intros m Hm. cbn. destruct (k =? m)%N eqn:E; [lia|auto]. }
      destruct (negb (discovered e2) && negb anon && (min_retry <? ts - en_asked e2)) eqn:Ec.
      + apply andb_true_iff in Ec as (Ec & Ec3). apply andb_true_iff in Ec as (Ec1 & Ec2).
        apply negb_true_iff in Ec1, Ec2. unfold discovered in Ec1.
        destruct (en_info e2) as [|] eqn:Ei; [discriminate|]. destruct (en_retries e2) as [|r] eqn:Er; [discriminate|].
        exists ((outs ++ news) ++ [MAsk k ts]). split; [apply (wf_put s2); exact Hw2|].
        split; [apply Hlog; cbn; rewrite G2, !app_assoc; reflexivity|].
        split; [intros H; apply in_app_or in H as [H|[H|[]]]; [auto|discriminate]|].
        intros m. destruct (N.eq_dec m k) as [->|Hm].
        * exists (snd (purge (look s k) now) ++ match f with Some _ => [] | None => [RNew] end), [ts].
          split.
          -- change (look (say (put s2 k _) _) k) with (look (put s2 k (Entry (en_uptime e2) None ts r ts)) k).
             rewrite look_put_same. rewrite Ec2. subst f. rewrite E2 in *. apply l_ask; auto. lia.
          -- rewrite story_app, asks_app, ES, EA, N.eqb_refl. cbn. rewrite N.eqb_refl, app_nil_r. auto.
        * exists [], []. split.
          -- change (look (say (put s2 k _) _) m) with (look (put s2 k (Entry (en_uptime e2) None ts r ts)) m).
             rewrite look_put_other by congruence. rewrite O2 by exact Hm.
             destruct (Hother m Hm). apply l_other; assumption.
          -- rewrite story_app, asks_app, ES, EA. cbn. destruct (k =? m)%N eqn:E; [lia|auto].
      + exists (outs ++ news). split; [exact Hw2|]. split; [apply Hlog; exact G2|]. split; [exact N2|].
        intros m. destruct (N.eq_dec m k) as [->|Hm].
        * exists (snd (purge (look s k) now) ++ match f with Some _ => [] | None => [RNew] end), [].
          change (if f then put s1 k e2 else say (put s1 k e2) (MNew k)) with s2.
          rewrite L2, ES, EA, N.eqb_refl. split; [|auto]. subst f. rewrite E2. apply l_status. rewrite <- E2.
          destruct (discovered e2); [auto|]. destruct anon; [auto|]. cbn in Ec. right. right. lia.
        * exists [], []. change (if f then put s1 k e2 else say (put s1 k e2) (MNew k)) with s2.
          rewrite O2, ES, EA by exact Hm. destruct (k =? m)%N eqn:E; [lia|]. split; [|auto].
          destruct (Hother m Hm). apply l_other; assumption.
    - destruct (get_view s0 k now Hw0) as (s1 & f & outs & Eg & Hw1 & Ef & El & Ha & Hp & Hq & Ho).
      unfold on_info. rewrite Eg.
      assert (Ef1 : f = fst (purge (look s k) now)) by (rewrite <- L0, <- Hp, Ef; reflexivity). clear Ef.
      set (e2 := update_from_info _ up i ts).
      exists (outs ++ [if text then MUpdate k else MRaise UnicodeError]).
      split; [destruct text; apply (wf_put s1); exact Hw1|].
      split; [apply Hlog; destruct text; cbn; rewrite El, app_assoc; reflexivity|].
      split; [intros H; apply in_app_or in H as [H|[H|[]]]; [auto|destruct text; discriminate]|].
      intros m. destruct (N.eq_dec m k) as [->|Hm].
      + exists (snd (purge (look s k) now) ++ if text then [RUpdate] else []), []. split; [|split].
        * replace (look (if text then say (put s1 k e2) (MUpdate k) else say (put s1 k e2) (MRaise UnicodeError)) k)
            with (Some e2) by (destruct text; symmetry; apply (look_put_same s1)).
          subst e2 f. apply l_info.
        * rewrite story_app. rewrite <- L0, <- Hp. cbn [snd]. f_equal. destruct text; cbn; [rewrite N.eqb_refl|]; reflexivity.
        * rewrite asks_app, Hq. destruct text; reflexivity.
      + destruct (Ho m Hm) as (Hm1 & Hm2 & Hm3). exists [], []. split; [|split].
        * replace (look (if text then say (put s1 k e2) (MUpdate k) else say (put s1 k e2) (MRaise UnicodeError)) m)
            with (look s m).
          2:{ rewrite <- L0, <- Hm1. destruct text; symmetry; apply (look_put_other s1); congruence. }
          apply l_other; cbn; destruct (k =? m)%N eqn:E; auto; lia.
        * rewrite story_app, Hm2. destruct text; cbn; [|reflexivity]. destruct (k =? m)%N eqn:E; [lia|reflexivity].
        * rewrite asks_app, Hm3. destruct text; reflexivity.
    - destruct (get_view s0 k now Hw0) as (s1 & f & outs & Eg & Hw1 & Ef & El & Ha & Hp & Hq & Ho).
      unfold on_request. rewrite Eg.
      assert (Ef1 : f = fst (purge (look s k) now)) by (rewrite <- L0, <- Hp, Ef; reflexivity). clear Ef.
      set (e1 := match f with Some e => e | None => new_entry end).
      exists (outs ++ [MRaise AttributeError]).
      split; [apply (wf_put s1); exact Hw1|].
      split; [apply Hlog; cbn; rewrite El, app_assoc; reflexivity|].
      split; [intros H; apply in_app_or in H as [H|[H|[]]]; [auto|discriminate]|].
      intros m. destruct (N.eq_dec m k) as [->|Hm].
      + exists (snd (purge (look s k) now)), []. split; [|split].
        * change (look (say (put s1 k ?x) _) k) with (look (put s1 k x) k).
          cbn [mo_registry say]. match goal with |- local _ _ _ ?l _ _ =>
            replace l with (Some (Entry (en_uptime e1) (en_info e1) ts max_retries (en_asked e1)))
              by (symmetry; apply (look_put_same s1)) end.
          subst e1 f. apply l_request.
        * rewrite story_app. rewrite <- L0, <- Hp. cbn. apply app_nil_r.
        * rewrite asks_app, Hq. reflexivity.
      + destruct (Ho m Hm) as (Hm1 & Hm2 & Hm3). exists [], []. split; [|split].
        * match goal with |- local _ _ _ ?l _ _ => replace l with (look s m) end.
          2:{ rewrite <- L0, <- Hm1. symmetry. apply (look_put_other s1). congruence. }
          apply l_other; cbn; destruct (k =? m)%N eqn:E; auto; lia.
        * rewrite story_app, Hm2. reflexivity.
        * rewrite asks_app, Hm3. reflexivity.
    - destruct (remove_loop now (reg s0) s0) as (Hw1 & Hl & outs & Ho & Hs); [exact Hw0|exact Hw0| |].
      { intros [k e] Hr. apply (dget_nodup_In _ Neqb_spec); assumption. }
      fold (remove_stale timeout s0 now) in *. exists outs. split; [exact Hw1|]. split; [apply Hlog; exact Ho|].
      split. { intros H. destruct (Hs 0%N) as (_ & _ & H3). destruct (H3 _ H) as (? & ?). discriminate. }
      intros n. destruct (Hs n) as (H1 & H2 & _). exists (snd (purge (look s n) (now n))), [].
      rewrite Hl. rewrite H1, L0. split; [|split; [|exact H2]].
      + match goal with |- local _ _ _ ?l _ _ => replace l with (fst (purge (look s n) (now n))) end; [apply l_tick|].
        destruct (look s n) as [x|]; cbn; [destruct (stale timeout x (now n))|]; reflexivity.
      + destruct (look s n) as [x|]; cbn; [destruct (stale timeout x (now n))|]; reflexivity.
    - destruct (get_view s0 k now Hw0) as (s1 & f & outs & Eg & Hw1 & Ef & El & Ha & Hp & Hq & Ho).
      rewrite Eg. cbn [fst]. exists outs. split; [exact Hw1|]. split; [apply Hlog; exact El|]. split; [exact Ha|].
      intros m. destruct (N.eq_dec m k) as [->|Hm].
      + exists (snd (purge (look s k) now)), []. split; [|split; [rewrite <- L0, <- Hp; reflexivity|exact Hq]].
        replace (look s1 k) with (fst (purge (look s k) now)) by (rewrite <- L0, <- Hp; reflexivity). apply l_get.
      + destruct (Ho m Hm) as (Hm1 & Hm2 & Hm3). exists [], []. rewrite Hm1, L0. split; [|auto].
        apply l_other; cbn; [reflexivity|]. destruct (k =? m)%N eqn:E; [lia|reflexivity].
  Qed.

  Lemma run_wf evs : wf (run evs).
  Proof.
    induction evs as [|e evs IH] using rev_ind; [constructor|]. rewrite run_snoc.
    destruct (step_local (run evs) e IH) as (outs & H & _). exact H.
  Qed.

  (** Induction over a history, for one node. *)
  Lemma run_ind n (P : list mevent -> option entry -> list report -> list Z -> Prop) :
    P [] None [] [] ->
    (forall evs e e0 rs0 as0 e1 rs as_, P evs e0 rs0 as0 -> local n e0 e e1 rs as_ ->
       P (evs ++ [e]) e1 (rs0 ++ rs) (as0 ++ as_)) ->
    forall evs, P evs (look (run evs) n) (story n (mo_log (run evs))) (asks n (mo_log (run evs))).
  Proof.
    intros H0 Hs evs. induction evs as [|e evs IH] using rev_ind; [exact H0|]. rewrite run_snoc.
    destruct (step_local (run evs) e (run_wf evs)) as (outs & _ & El & _ & Hl).
    destruct (Hl n) as (rs & as_ & Hloc & <- & <-). rewrite El, story_app, asks_app.
    eapply Hs; eauto.
  Qed.

  Lemma heard_snoc n evs e : heard n (evs ++ [e]) = heard n evs ++ heard_in n e.
  Proof. unfold heard. rewrite flat_map_app. cbn. rewrite app_nil_r. reflexivity. Qed.
  Lemma readings_snoc n evs e : readings n (evs ++ [e]) = readings n evs ++ reading_in n e.
  Proof. unfold readings. rewrite flat_map_app. cbn. rewrite app_nil_r. reflexivity. Qed.

  (** The entry carries the time of the last message; a node that was heard
      and is not listed was found stale. *)
  Definition fresh_inv (n : N) (evs : list mevent) (e0 : option entry) : Prop :=
    match e0 with
    | Some e => last_opt (heard n evs) = Some (en_ts e)
    | None => match last_opt (heard n evs) with
              | None => True
              | Some ts => exists r, In r (readings n evs) /\ ts + timeout < r end
    end.

  Lemma local_fresh n evs e e0 e1 rs as_ : fresh_inv n evs e0 -> local n e0 e e1 rs as_ ->
    fresh_inv n (evs ++ [e]) e1.
  Proof.
    intros H L. unfold fresh_inv. rewrite heard_snoc, readings_snoc.
    assert (Hpurge : forall now, heard_in n e = [] -> reading_in n e = [now] ->
               match fst (purge e0 now) with
               | Some x => last_opt (heard n evs ++ heard_in n e) = Some (en_ts x)
               | None => match last_opt (heard n evs ++ heard_in n e) with
                         | None => True
                         | Some ts => exists r, In r (readings n evs ++ reading_in n e) /\ ts + timeout < r end
               end).
    { intros now Eh Er. rewrite Eh, Er, app_nil_r. destruct e0 as [x|]; cbn.
      - unfold stale. destruct (en_ts x + timeout <? now) eqn:Es; cbn; [|exact H].
        cbn in H. rewrite H. exists now. split; [apply in_or_app; right; left; reflexivity|lia].
      - cbn in H. destruct (last_opt (heard n evs)); [|exact I]. destruct H as (r & Hr & Hlt).
        exists r. split; [apply in_or_app; auto|exact Hlt]. }
    destruct L.
    - rewrite H0, H1, !app_nil_r. exact H.
    - apply (Hpurge (now n)); reflexivity.
    - apply (Hpurge now); cbn; rewrite ?N.eqb_refl; reflexivity.
    - cbn. rewrite N.eqb_refl, last_opt_snoc. unfold e2. rewrite en_ts_update. reflexivity.
    - cbn. rewrite N.eqb_refl, last_opt_snoc. reflexivity.
    - cbn. rewrite N.eqb_refl, last_opt_snoc. reflexivity.
    - cbn. rewrite N.eqb_refl, last_opt_snoc. reflexivity.
  Qed.

  Lemma run_fresh n evs : fresh_inv n evs (look (run evs) n).
  Proof.
    apply (run_ind n (fun evs e0 _ _ => fresh_inv n evs e0)); [exact I|].
    intros. eapply local_fresh; eauto.
  Qed.

  Theorem monitor_fresh n evs now : (forall r, In r (readings n evs) -> r <= now n) ->
    listed (run (evs ++ [MTick now])) n = true <->
    exists ts, last_opt (heard n evs) = Some ts /\ now n <= ts + timeout.
  Proof.
    intros Hr. pose proof (run_fresh n evs) as Hf. rewrite run_snoc.
    destruct (step_local (run evs) (MTick now) (run_wf evs)) as (outs & _ & _ & _ & Hl).
    destruct (Hl n) as (rs & as_ & Hloc & _ & _). unfold listed, dmem.
    set (e1 := look (step (run evs) (MTick now)) n) in *.
    assert (E : e1 = fst (purge (look (run evs) n) (now n))) by (inversion Hloc; subst; [discriminate|reflexivity]).
    rewrite E. destruct (look (run evs) n) as [x|]; cbn in *.
    - unfold stale. destruct (en_ts x + timeout <? now n) eqn:Es; cbn.
      + split; [discriminate|]. intros (ts & H & Hle). rewrite Hf in H. injection H as <-. lia.
      + split; [|reflexivity]. intros _. exists (en_ts x). split; [exact Hf|lia].
    - split; [discriminate|]. intros (ts & H & Hle). rewrite H in Hf. destruct Hf as (r & Hin & Hlt).
      specialize (Hr r Hin). lia.
  Qed.

  (** Stories. *)
  Fixpoint new_end (k : bool) (l : list report) : bool :=
    match l with [] => k | RNew :: l' => new_end true l' | RUpdate :: l' => new_end k l' | ROffline :: l' => new_end false l' end.
  Lemma new_once_app k a b : new_once k (a ++ b) = new_once k a && new_once (new_end k a) b.
  Proof.
    revert k. induction a as [|[] a IH]; intros k; cbn; [reflexivity| | |]; rewrite ?IH, ?andb_assoc; reflexivity.
  Qed.
  Lemma new_end_app k a b : new_end k (a ++ b) = new_end (new_end k a) b.
  Proof. revert k. induction a as [|[] a IH]; intros k; cbn; auto. Qed.

  Theorem monitor_new_once n evs : new_once false (story n (mo_log (run evs))) = true.
  Proof.
    refine (proj1 (run_ind n (fun evs e0 rs _ => new_once false rs = true /\ (e0 = None -> new_end false rs = false)) _ _ evs)).
    - split; reflexivity.
    - clear evs. intros evs e e0 rs0 as0 e1 rs as_ (IH1 & IH2) L.
      rewrite new_once_app, new_end_app, IH1. cbn [andb].
      assert (Hp : forall now, new_once (new_end false rs0) (snd (purge e0 now)) = true /\
                   (fst (purge e0 now) = None -> new_end (new_end false rs0) (snd (purge e0 now)) = false)).
      { intros now. destruct e0 as [x|]; cbn; [destruct (stale timeout x now)|]; cbn; split; auto; discriminate. }
      destruct L; try apply Hp; try (split; [reflexivity|]; auto; fail);
        rewrite ?new_once_app, ?new_end_app.
      + split; [|discriminate]. destruct (Hp now) as (H1 & H2). rewrite H1. subst news e1.
        destruct (fst (purge e0 now)); [reflexivity|]. rewrite H2 by reflexivity. reflexivity.
      + split; [|discriminate]. destruct (Hp now) as (H3 & H4). rewrite H3. subst news e1.
        destruct (fst (purge e0 now)); [reflexivity|]. rewrite H4 by reflexivity. reflexivity.
      + split; [|discriminate]. rewrite (proj1 (Hp now)). destruct text; reflexivity.
      + split; [|discriminate]. apply (Hp now).
  Qed.

  Fixpoint on_end (k : bool) (l : list report) : bool :=
    match l with [] => k | RNew :: l' | RUpdate :: l' => on_end true l' | ROffline :: l' => on_end false l' end.
  Lemma coherent_app k a b : coherent k (a ++ b) = coherent k a && coherent (on_end k a) b.
  Proof.
    revert k. induction a as [|[] a IH]; intros k; cbn; [reflexivity| | |]; rewrite ?IH, ?andb_assoc; reflexivity.
  Qed.
  Lemma on_end_app k a b : on_end k (a ++ b) = on_end (on_end k a) b.
  Proof. revert k. induction a as [|[] a IH]; intros k; cbn; auto. Qed.

  Lemma introduced_prefix n a b : introduced timeout n (a ++ b) -> introduced timeout n a.
  Proof. intros H x e y ->. apply (H x e (y ++ b)). rewrite <- app_assoc. reflexivity. Qed.

  Theorem monitor_coherent n evs : introduced timeout n evs ->
    coherent false (story n (mo_log (run evs))) = true.
  Proof.
    assert (HP : introduced timeout n evs -> fresh_inv n evs (look (run evs) n) /\
       coherent false (story n (mo_log (run evs))) = true /\
       on_end false (story n (mo_log (run evs))) = match look (run evs) n with Some _ => true | None => false end).
    { apply (run_ind n (fun evs e0 rs _ => introduced timeout n evs -> fresh_inv n evs e0 /\
       coherent false rs = true /\ on_end false rs = match e0 with Some _ => true | None => false end)).
      - intros _. repeat split.
      - clear evs. intros evs e e0 rs0 as0 e1 rs as_ IH L Hi.
        destruct (IH (introduced_prefix _ _ _ Hi)) as (IHf & IH1 & IH2). specialize (Hi evs e [] eq_refl).
        split; [eapply local_fresh; eauto|]. rewrite coherent_app, on_end_app, IH1, IH2. cbn [andb].
        set (b := match e0 with Some _ => true | None => false end).
        assert (Hp : forall now, coherent b (snd (purge e0 now)) = true /\
                     on_end b (snd (purge e0 now)) = match fst (purge e0 now) with Some _ => true | None => false end).
        { intros now. subst b. destruct e0 as [x|]; cbn; [destruct (stale timeout x now)|]; cbn; split; reflexivity. }
        destruct L; try apply Hp; try (split; reflexivity); rewrite ?coherent_app, ?on_end_app.
        + destruct (Hp now) as (H1 & H2). rewrite H1, H2. subst news e1.
          destruct (fst (purge e0 now)); split; reflexivity.
        + destruct (Hp now) as (H3 & H4). rewrite H3, H4. subst news e1.
          destruct (fst (purge e0 now)); split; reflexivity.
        + destruct (Hi eq_refl) as ((t & Ht & Hle) & Hr). destruct (Hp now) as (H1 & H2). rewrite H1, H2.
          assert (Hs : exists x, fst (purge e0 now) = Some x).
          { destruct e0 as [x|]; cbn in *.
            - unfold stale. rewrite Ht in IHf. injection IHf as ->.
              destruct (en_ts x + timeout <? now) eqn:Es; [lia|]. exists x. reflexivity.
            - exfalso. rewrite Ht in IHf. destruct IHf as (r & Hin & Hlt). specialize (Hr r Hin). lia. }
          destruct Hs as (x & ->). destruct text; split; reflexivity.
        + contradiction. }
    intros Hi. apply HP. exact Hi.
  Qed.

  (** Requests for info. *)
  Lemma orderly_prefix lag n a b : orderly lag n (a ++ b) -> orderly lag n a.
  Proof. intros H x e y ts ->. apply (H x e (y ++ b) ts). rewrite <- app_assoc. reflexivity. Qed.

  Lemma orderly_last lag n evs x y : orderly lag n evs -> In x (heard n evs) ->
    last_opt (heard n evs) = Some y -> x <= y.
  Proof.
    induction evs as [|e evs IH] using rev_ind; [intros _ []|]. intros Ho. rewrite heard_snoc.
    specialize (IH (orderly_prefix _ _ _ _ Ho)). rewrite last_opt_app. intros Hin Hl.
    assert (He : heard_in n e = [] \/ exists ts, heard_in n e = [ts]).
    { destruct e; cbn; auto; destruct (_ =? _)%N; eauto. }
    destruct He as [He|(ts & He)]; rewrite He in *.
    - rewrite app_nil_r in Hin. auto.
    - cbn in Hl. injection Hl as <-. apply in_app_or in Hin as [Hin|[->|[]]]; [|lia].
      apply (Ho evs e [] ts eq_refl); [rewrite He; left; reflexivity|exact Hin].
  Qed.

  Definition ask_inv (n : N) (evs : list mevent) (e0 : option entry) (asked : list Z) : Prop :=
    StronglySorted (fun a b => a + min_retry < b) asked /\
    (forall t, In t asked -> In t (heard n evs)) /\
    forall t, In t asked ->
      (exists e, e0 = Some e /\ t <= en_asked e) \/ (exists r, In r (readings n evs) /\ t + timeout < r).

  Lemma sorted_snoc {A} (R : A -> A -> Prop) l x : StronglySorted R l -> (forall y, In y l -> R y x) ->
    StronglySorted R (l ++ [x]).
  Proof.
    induction l as [|a l IH]; intros Hs Hx; cbn; [repeat constructor|].
    inversion Hs as [|? ? Hs' Hf]; subst. constructor; [apply IH; [exact Hs'|intros; apply Hx; right; assumption]|].
    apply Forall_app. split; [exact Hf|]. constructor; [|constructor]. apply Hx. left. reflexivity.
  Qed.

  Theorem monitor_interval lag n evs : lag + min_retry <= timeout -> orderly lag n evs ->
    StronglySorted (fun a b => a + min_retry < b) (asks n (mo_log (run evs))).
  Proof.
    intros Hlag.
    assert (HP : orderly lag n evs -> fresh_inv n evs (look (run evs) n) /\
       ask_inv n evs (look (run evs) n) (asks n (mo_log (run evs)))).
    { apply (run_ind n (fun evs e0 _ as0 => orderly lag n evs -> fresh_inv n evs e0 /\ ask_inv n evs e0 as0)).
      - intros _. split; [exact I|]. split; [constructor|]. split; intros ? [].
      - clear evs. intros evs e e0 rs0 as0 e1 rs as_ IH L Ho.
        destruct (IH (orderly_prefix _ _ _ _ Ho)) as (IHf & IHs & IHh & IHa).
        split; [eapply local_fresh; eauto|].
        assert (Hh : forall t, In t as0 -> In t (heard n (evs ++ [e]))).
        { intros t Ht. rewrite heard_snoc. apply in_or_app. auto. }
        (* what is known of an earlier request once the entry was looked up *)
        assert (Hp : forall now t, In now (reading_in n e) -> In t as0 ->
          (exists x, fst (purge e0 now) = Some x /\ t <= en_asked x) \/
          (exists r, In r (readings n (evs ++ [e])) /\ t + timeout < r)).
        { intros now t Hn Ht. rewrite readings_snoc.
          destruct (IHa t Ht) as [(x & -> & Hx)|(r & Hr & Hlt)].
          - cbn. unfold stale. destruct (en_ts x + timeout <? now) eqn:Es; [|left; exists x; auto].
            right. exists now. split; [apply in_or_app; auto|].
            pose proof (orderly_last lag n evs t (en_ts x) (orderly_prefix _ _ _ _ Ho) (IHh t Ht) IHf). lia.
          - right. exists r. split; [apply in_or_app; auto|exact Hlt]. }
        assert (Hu : forall y up ts, en_asked (update_from_status y up ts) = en_asked y).
        { intros y up ts. unfold update_from_status. destruct (en_uptime y) as [u|]; [destruct (up <? u)%N|]; reflexivity. }
        destruct L; rewrite ?app_nil_r.
        + split; [exact IHs|]. split; [exact Hh|]. intros t Ht.
          destruct (IHa t Ht) as [Hx|(r & Hr & Hlt)]; [left; exact Hx|].
          right. exists r. rewrite readings_snoc. split; [apply in_or_app; auto|exact Hlt].
        + split; [exact IHs|]. split; [exact Hh|]. intros t Ht.
          apply (Hp (now n) t); [left; reflexivity|exact Ht].
        + split; [exact IHs|]. split; [exact Hh|]. intros t Ht.
          apply (Hp now t); [cbn; rewrite N.eqb_refl; left; reflexivity|exact Ht].
        + split; [exact IHs|]. split; [exact Hh|]. intros t Ht.
          destruct (Hp now t) as [(x & Hx & Hle)|Hr]; [cbn; rewrite N.eqb_refl; left; reflexivity|exact Ht| |right; exact Hr].
          left. exists e2. split; [reflexivity|]. unfold e2. rewrite Hu. unfold e1. rewrite Hx. exact Hle.
        + assert (Hlt : forall t, In t as0 -> t + min_retry < ts).
          { intros t Ht.
            destruct (Hp now t) as [(x & Hx & Hle)|(rd & Hr & Hlt)];
              [cbn; rewrite N.eqb_refl; left; reflexivity|exact Ht| |].
            - unfold e2 in H1. rewrite Hu in H1. unfold e1 in H1. rewrite Hx in H1. cbn in H1. lia.
            - destruct (Ho evs (MStatus n up ts now false) [] ts eq_refl) as (_ & Hr').
              { cbn. rewrite N.eqb_refl. left. reflexivity. }
              specialize (Hr' rd Hr). lia. }
          split; [apply sorted_snoc; assumption|]. split.
          * intros t Ht. apply in_app_or in Ht as [Ht|[<-|[]]]; [auto|].
            rewrite heard_snoc. cbn. rewrite N.eqb_refl. apply in_or_app. right. left. reflexivity.
          * intros t Ht. left. eexists. split; [reflexivity|]. cbn.
            apply in_app_or in Ht as [Ht|[<-|[]]]; [|lia].
            destruct (Hp now t) as [(x & Hx & Hle)|(rd & Hr & Hlt')];
              [cbn; rewrite N.eqb_refl; left; reflexivity|exact Ht| |].
            -- specialize (Hlt t Ht). 
               destruct (Ho evs (MStatus n up ts now false) [] ts eq_refl) as (Hmono & _).
               { cbn. rewrite N.eqb_refl. left. reflexivity. }
               apply Hmono. auto.
            -- destruct (Ho evs (MStatus n up ts now false) [] ts eq_refl) as (Hmono & _).
               { cbn. rewrite N.eqb_refl. left. reflexivity. }
               apply Hmono. auto.
        + split; [exact IHs|]. split; [exact Hh|]. intros t Ht.
          destruct (Hp now t) as [(x & Hx & Hle)|Hr]; [cbn; rewrite N.eqb_refl; left; reflexivity|exact Ht| |right; exact Hr].
          left. eexists. split; [reflexivity|]. cbn. rewrite Hx. exact Hle.
        + split; [exact IHs|]. split; [exact Hh|]. intros t Ht.
          destruct (Hp now t) as [(x & Hx & Hle)|Hr]; [cbn; rewrite N.eqb_refl; left; reflexivity|exact Ht| |right; exact Hr].
          left. eexists. split; [reflexivity|]. cbn. unfold e1. rewrite Hx. exact Hle. }
    intros Ho. apply (HP Ho).
  Qed.

  (** At most ten. *)
  Lemma retries_bound n evs : match look (run evs) n with Some e => (en_retries e <= 10)%nat | None => True end.
  Proof.
    apply (run_ind n (fun _ e0 _ _ => match e0 with Some e => (en_retries e <= 10)%nat | None => True end)); [exact I|].
    clear evs. intros evs e e0 rs0 as0 e1 rs as_ IH L.
    assert (Hp : forall now, match fst (purge e0 now) with Some e => (en_retries e <= 10)%nat | None => True end).
    { intros now. destruct e0 as [x|]; cbn; [destruct (stale timeout x now)|]; cbn; auto. }
    assert (Hb : forall now up ts, (en_retries (update_from_status (base (fst (purge e0 now))) up ts) <= 10)%nat).
    { intros now up ts. specialize (Hp now). unfold update_from_status.
      destruct (fst (purge e0 now)) as [x|]; cbn.
      - destruct (en_uptime x) as [u|]; [destruct (up <? u)%N|]; cbn; unfold max_retries; lia.
      - unfold max_retries. lia. }
    destruct L; try exact IH; try apply Hp; cbn; unfold max_retries; try lia; try apply Hb.
    specialize (Hb now up ts). unfold e2, e1 in *. lia.
  Qed.

  Lemma Sorted_last_le l x y : Sorted N.le (l ++ [x]) -> last_opt l = Some y -> (y <= x)%N.
  Proof.
    destruct l as [|z l'] using rev_ind; [discriminate|]. rewrite last_opt_snoc. intros H [= ->].
    clear IHl'. rewrite <- app_assoc in H. cbn in H.
    assert (H' : Sorted N.le [y; x]).
    { induction l' as [|a l' IH]; [exact H|]. cbn in H. inversion H; subst. auto. }
    inversion H' as [|? ? _ Hd]; subst. inversion Hd; subst. assumption.
  Qed.

  Lemma Sorted_prefix l l' : Sorted N.le (l ++ l') -> Sorted N.le l.
  Proof.
    induction l as [|a l IH]; [constructor|]. cbn. intros H. inversion H as [|? ? Hs Hd]; subst.
    constructor; [auto|]. destruct l as [|b l]; [constructor|]. inversion Hd; subst. constructor. assumption.
  Qed.

  Lemma run_extends a b : exists l, mo_log (run (a ++ b)) = mo_log (run a) ++ l.
  Proof.
    induction b as [|e b (l & IH)] using rev_ind; [exists []; rewrite !app_nil_r; reflexivity|].
    rewrite app_assoc, run_snoc.
    destruct (step_local (run (a ++ b)) e (run_wf _)) as (outs & _ & El & _). rewrite El, IH.
    rewrite <- app_assoc. eauto.
  Qed.

  Lemma uptimes_snoc n evs e : uptimes n (evs ++ [e]) = uptimes n evs ++ uptime_in n e.
  Proof. unfold uptimes. rewrite flat_map_app. cbn. rewrite app_nil_r. reflexivity. Qed.

  Theorem monitor_bounded n a b l : mo_log (run (a ++ b)) = mo_log (run a) ++ l ->
    unanswered n b -> Sorted N.le (uptimes n b) -> ~ In ROffline (story n l) ->
    (length (asks n l) <= 10)%nat.
  Proof.
    intros El Hu Hs Ho.
    assert (Inv : forall b l, mo_log (run (a ++ b)) = mo_log (run a) ++ l ->
       unanswered n b -> Sorted N.le (uptimes n b) -> ~ In ROffline (story n l) ->
       match last_opt (uptimes n b) with
       | None => asks n l = []
       | Some u => exists e, look (run (a ++ b)) n = Some e /\ en_uptime e = Some u /\
                             (length (asks n l) + en_retries e <= 10)%nat
       end).
    2:{ specialize (Inv b l El Hu Hs Ho). destruct (last_opt (uptimes n b)).
        - destruct Inv as (e & _ & _ & H). lia.
        - rewrite Inv. cbn. lia. }
    clear b l El Hu Hs Ho. induction b as [|e b IH] using rev_ind.
    { intros l El _ _ _. rewrite app_nil_r in El. rewrite <- (app_nil_r (mo_log (run a))) in El at 1.
      apply app_inv_head in El. subst l. reflexivity. }
    intros l El Hu Hs Ho. destruct (run_extends a b) as (l0 & E0).
    rewrite app_assoc, run_snoc in *.
    destruct (step_local (run (a ++ b)) e (run_wf _)) as (outs & _ & Ee & _ & Hl).
    rewrite Ee, E0, <- app_assoc in El. apply app_inv_head in El. subst l.
    rewrite story_app in Ho. change (story n (MIn e :: outs)) with (story n outs) in Ho.
    rewrite asks_app. change (asks n (MIn e :: outs)) with (asks n outs).
    rewrite uptimes_snoc in Hs |- *. 
    specialize (IH l0 E0). 
    assert (IH' := IH (fun x Hx => Hu x (in_or_app _ _ _ (or_introl Hx))) (Sorted_prefix _ _ Hs)
                      (fun H => Ho (in_or_app _ _ _ (or_introl H)))). clear IH.
    destruct (Hl n) as (rs & as_ & L & Ers & Eas). rewrite Ers in Ho. rewrite Eas.
    assert (Hro : ~ In ROffline rs) by (intros H; apply Ho; apply in_or_app; auto).
    pose proof (retries_bound n (a ++ b)) as Hrb.
    assert (Hp : forall now, ~ In ROffline (snd (purge (look (run (a ++ b)) n) now)) ->
                 fst (purge (look (run (a ++ b)) n) now) = look (run (a ++ b)) n).
    { intros now. destruct (look (run (a ++ b)) n) as [x|]; cbn; [destruct (stale timeout x now)|]; cbn; tauto. }
    assert (Hue : match e with MInfo n' _ _ _ _ _ | MRequest n' _ _ => n' <> n | _ => True end).
    { apply (Hu e). apply in_or_app. right. left. reflexivity. }
    set (e0 := look (run (a ++ b)) n) in *.
    remember (look (step (run (a ++ b)) e) n) as e1 eqn:Ee1. clear Ee1 Hl Ee Hu Ers Eas.
    destruct L.
    - assert (Eu : uptime_in n e = []). { destruct e; cbn in *; try reflexivity. destruct (_ =? _)%N; [discriminate|reflexivity]. }
      rewrite Eu, !app_nil_r in *. exact IH'.
    - cbn [uptime_in]. rewrite !app_nil_r in *. rewrite (Hp _ Hro). exact IH'.
    - cbn [uptime_in]. rewrite !app_nil_r in *. rewrite (Hp _ Hro). exact IH'.
    - assert (Hro' : ~ In ROffline (snd (purge e0 now))) by (intros H1; apply Hro; apply in_or_app; auto).
      cbn in Hs |- *. rewrite N.eqb_refl in Hs |- *. rewrite last_opt_snoc. exists e2. split; [reflexivity|].
      subst e2 e1. rewrite (Hp now Hro'). rewrite app_nil_r.
      destruct (last_opt (uptimes n b)) as [u|] eqn:Eu.
      + destruct IH' as (x & Ex & Exu & Hle). rewrite Ex. cbn [base]. unfold update_from_status. rewrite Exu.
        pose proof (Sorted_last_le _ _ _ Hs Eu). destruct (up <? u)%N eqn:E; [lia|]. cbn. split; [reflexivity|exact Hle].
      + rewrite IH'. cbn [length]. unfold update_from_status. destruct e0 as [x|]; cbn.
        * destruct (en_uptime x) as [v|]; [destruct (up <? v)%N|]; cbn; unfold max_retries; split; auto; lia.
        * unfold max_retries. split; auto.
    - assert (Hro' : ~ In ROffline (snd (purge e0 now))) by (intros H2; apply Hro; apply in_or_app; auto).
      cbn in Hs |- *. rewrite N.eqb_refl in Hs |- *. rewrite last_opt_snoc. eexists. split; [reflexivity|]. cbn.
      rewrite app_length. cbn [length].
      subst e2 e1. rewrite (Hp now Hro') in *. 
      destruct (last_opt (uptimes n b)) as [u|] eqn:Eu.
      + destruct IH' as (x & Ex & Exu & Hle). rewrite Ex in *. cbn [base] in *. unfold update_from_status in *. rewrite Exu in *.
        pose proof (Sorted_last_le _ _ _ Hs Eu). destruct (up <? u)%N eqn:E; [lia|]. cbn in *. split; [reflexivity|lia].
      + rewrite IH'. cbn [length]. unfold update_from_status in *. destruct e0 as [x|]; cbn in *.
        * destruct (en_uptime x) as [v|]; [destruct (up <? v)%N|]; cbn in *; unfold max_retries in *; split; auto; lia.
        * unfold max_retries in *. split; auto. lia.
    - contradiction.
    - contradiction.
  Qed.

  Theorem monitor_no_assert evs : ~ In (MRaise AssertionError) (mo_log (run evs)).
  Proof.
    induction evs as [|e evs IH] using rev_ind; [intros []|]. rewrite run_snoc.
    destruct (step_local (run evs) e (run_wf evs)) as (outs & _ & El & Ha & _). rewrite El.
    intros H. apply in_app_or in H as [H|[H|H]]; [auto|discriminate|auto].
  Qed.

  Theorem monitor_asks n evs up ts now : heard n evs = [] -> min_retry < ts ->
    asks n (mo_log (run (evs ++ [MStatus n up ts now false]))) = asks n (mo_log (run evs)) ++ [ts].
  Proof.
    intros Hh Ht. pose proof (run_fresh n evs) as Hf. unfold fresh_inv in Hf. rewrite Hh in Hf. cbn in Hf.
    rewrite run_snoc.
    destruct (step_local (run evs) (MStatus n up ts now false) (run_wf evs)) as (outs & _ & El & _ & Hl).
    destruct (Hl n) as (rs & as_ & L & _ & Eas). rewrite El, asks_app.
    change (asks n (MIn ?e :: outs)) with (asks n outs). f_equal. cbn [flat_map ask_in asks app].
    fold (asks n outs). rewrite Eas. destruct (look (run evs) n) as [x|]; [discriminate|].
    inversion L; subst; try reflexivity.
    - match goal with H : heard_in _ _ = [] |- _ => cbn in H; rewrite N.eqb_refl in H; discriminate end.
    - exfalso. match goal with H : _ \/ _ \/ _ |- _ => destruct H as [H|[H|H]]; cbn in H end;
        [discriminate|discriminate|lia].
  Qed.

  Lemma told_snoc n evs e : told n (evs ++ [e]) = told n evs ++ told_in n e.
  Proof. unfold told. rewrite flat_map_app. cbn. rewrite app_nil_r. reflexivity. Qed.

  (** What the entry of a node says of its uptime and of the requests. *)
  Definition knows (n : N) (evs : list mevent) (e : option entry) (as_ : list Z) : Prop :=
    match e with
    | None => True
    | Some x => (en_uptime x = last_opt (told n evs) \/ en_info x = None /\ en_retries x = max_retries) /\
                (en_asked x = 0 \/ In (en_asked x) as_)
    end.
  Lemma knows_purge n evs e as_ now : knows n evs e as_ -> knows n evs (fst (purge e now)) as_.
  Proof. destruct e as [x|]; cbn; [destruct (stale timeout x now)|]; cbn; auto. Qed.
  Lemma knows_base n evs e as_ now : knows n evs e as_ -> let x := base (fst (purge e now)) in
    (en_uptime x = last_opt (told n evs) \/ en_info x = None /\ en_retries x = max_retries) /\
    (en_asked x = 0 \/ In (en_asked x) as_).
  Proof. intros K. apply (knows_purge _ _ _ _ now) in K. destruct (fst (purge e now)); [exact K|]. cbn. auto. Qed.
  Lemma update_asked e up ts : en_asked (update_from_status e up ts) = en_asked e.
  Proof. unfold update_from_status. destruct (en_uptime e) as [u|]; [destruct (up <? u)%N|]; reflexivity. Qed.
  Lemma update_uptime e up ts : en_uptime (update_from_status e up ts) = Some up.
  Proof. unfold update_from_status. destruct (en_uptime e) as [u|]; [destruct (up <? u)%N|]; reflexivity. Qed.
  Lemma run_knows n evs : knows n evs (look (run evs) n) (asks n (mo_log (run evs))).
  Proof.
    apply (run_ind n (fun evs e _ as_ => knows n evs e as_)); [exact I|].
    intros evs0 e e0 rs0 as0 e1 rs as_ K L.
    assert (I1 : forall x, x = 0 \/ In x as0 -> x = 0 \/ In x (as0 ++ as_)) by (intros x [H|H]; [auto|right; apply in_or_app; auto]).
    destruct L as [e Hh Hr|now|now|up ts now anon e1 e2 news Hx|up ts now r e1 e2 news Hi Hre Hx|up i ts now text|ts now e1].
    - assert (Eu : told_in n e = []). { destruct e; cbn in *; try reflexivity; destruct (_ =? _)%N; auto; discriminate. }
      unfold knows. rewrite told_snoc, Eu, app_nil_r. destruct e0; [|exact I]. destruct K as (K1 & K2). auto.
    - apply (knows_purge _ _ _ _ (now n)) in K. destruct (fst (purge e0 (now n))); [|exact I].
      unfold knows. rewrite told_snoc. cbn [told_in]. rewrite app_nil_r. destruct K; auto.
    - apply (knows_purge _ _ _ _ now) in K. destruct (fst (purge e0 now)); [|exact I].
      unfold knows. rewrite told_snoc. cbn [told_in]. rewrite app_nil_r. destruct K; auto.
    - apply (knows_base _ _ _ _ now) in K as (_ & K). subst e2 e1. unfold knows. rewrite update_uptime, update_asked, told_snoc.
      cbn [told_in]. rewrite N.eqb_refl, last_opt_snoc. auto.
    - subst e2 e1. unfold knows. cbn [en_uptime en_asked]. rewrite update_uptime, told_snoc.
      cbn [told_in]. rewrite N.eqb_refl, last_opt_snoc. split; [auto|]. right. apply in_or_app. right. left. reflexivity.
    - apply (knows_base _ _ _ _ now) in K as (_ & K). unfold knows, update_from_info. cbn [en_uptime en_asked]. rewrite told_snoc.
      cbn [told_in]. rewrite N.eqb_refl, last_opt_snoc. auto.
    - apply (knows_base _ _ _ _ now) in K as (K1 & K). unfold knows. cbn [en_uptime en_asked en_info en_retries]. rewrite told_snoc.
      cbn [told_in]. rewrite app_nil_r. split; [|auto]. subst e1. destruct K1 as [K1|(K1 & _)]; auto.
  Qed.

  (** A node that restarts is asked again. *)
  Theorem monitor_restarted n evs us u up ts now : told n evs = us ++ [u] -> (up < u)%N -> min_retry < ts ->
    (forall t, In t (asks n (mo_log (run evs))) -> t + min_retry < ts) ->
    asks n (mo_log (run (evs ++ [MStatus n up ts now false]))) = asks n (mo_log (run evs)) ++ [ts].
  Proof.
    intros Ht Hu Hr Hb. pose proof (run_knows n evs) as K. apply (knows_base _ _ _ _ now) in K as (K & KA). rewrite Ht, last_opt_snoc in K.
    rewrite run_snoc.
    destruct (step_local (run evs) (MStatus n up ts now false) (run_wf evs)) as (outs & _ & El & _ & Hl).
    destruct (Hl n) as (rs & as_ & L & _ & Eas). rewrite El, asks_app.
    change (asks n (MIn ?e :: outs)) with (asks n outs). f_equal. cbn [flat_map ask_in asks app].
    fold (asks n outs). rewrite Eas. set (e0 := look (run evs) n) in *. clearbody e0.
    inversion L; subst; try reflexivity.
    - match goal with H : heard_in _ _ = [] |- _ => cbn in H; rewrite N.eqb_refl in H; discriminate end.
    - exfalso. assert (A : en_asked (base (fst (purge e0 now))) + min_retry < ts).
      { destruct KA as [->|KA]; [lia|]. apply Hb. exact KA. }
      repeat match goal with x := _ |- _ => subst x end.
      match goal with H : _ \/ _ \/ _ |- _ => destruct H as [H|[H|H]] end;
        [|discriminate|rewrite update_asked in *; lia].
      unfold update_from_status in *. destruct K as [K|(K1 & K2)].
      + rewrite K in *. replace (up <? u)%N with true in * by lia. discriminate.
      + destruct (en_uptime (base (fst (purge e0 now)))) as [v|]; [destruct (up <? v)%N|]; unfold discovered in *; cbn in *; try discriminate;
          rewrite K1, K2 in *; discriminate.
  Qed.

  (** A node that has answered is not asked, until it restarts or is lost. *)
  Theorem monitor_answered n a b l u i ts now text :
    mo_log (run (a ++ MInfo n u i ts now text :: b)) = mo_log (run (a ++ [MInfo n u i ts now text])) ++ l ->
    Sorted N.le (u :: told n b) -> ~ In ROffline (story n l) -> asks n l = [].
  Proof.
    set (a' := a ++ [MInfo n u i ts now text]). intros El Hs Ho.
    replace (a ++ MInfo n u i ts now text :: b) with (a' ++ b) in El by (unfold a'; rewrite <- app_assoc; reflexivity).
    assert (Inv : forall b l, mo_log (run (a' ++ b)) = mo_log (run a') ++ l ->
       Sorted N.le (u :: told n b) -> ~ In ROffline (story n l) ->
       asks n l = [] /\ exists e, look (run (a' ++ b)) n = Some e /\ en_uptime e = last_opt (u :: told n b) /\ en_info e <> None).
    2:{ apply (Inv b l El Hs Ho). }
    clear b l El Hs Ho. induction b as [|e b IH] using rev_ind.
    { intros l El _ _. rewrite app_nil_r in *. rewrite <- (app_nil_r (mo_log (run a'))) in El at 1.
      apply app_inv_head in El. subst l. split; [reflexivity|]. unfold a'. rewrite run_snoc.
      destruct (step_local (run a) (MInfo n u i ts now text) (run_wf a)) as (outs & _ & _ & _ & Hl).
      destruct (Hl n) as (rs & as_ & L & _). remember (look (step (run a) (MInfo n u i ts now text)) n) as e1. clear Heqe1.
      inversion L; subst.
      - match goal with H : heard_in _ _ = [] |- _ => cbn in H; rewrite N.eqb_refl in H; discriminate end.
      - eexists. split; [reflexivity|]. split; [reflexivity|discriminate]. }
    intros l El Hs Ho. destruct (run_extends a' b) as (l0 & E0).
    rewrite app_assoc, run_snoc in *.
    destruct (step_local (run (a' ++ b)) e (run_wf _)) as (outs & _ & Ee & _ & Hl).
    rewrite Ee, E0, <- app_assoc in El. apply app_inv_head in El. subst l.
    rewrite story_app in Ho. change (story n (MIn e :: outs)) with (story n outs) in Ho.
    rewrite asks_app. change (asks n (MIn e :: outs)) with (asks n outs).
    rewrite told_snoc, app_comm_cons in Hs |- *.
    destruct (IH l0 E0 (Sorted_prefix _ _ Hs) (fun H => Ho (in_or_app _ _ _ (or_introl H)))) as (A0 & x & Ex & Exu & Exi). clear IH.
    destruct (Hl n) as (rs & as_ & L & Ers & Eas). rewrite Ers in Ho. rewrite Eas, A0.
    assert (Hro : ~ In ROffline rs) by (intros H; apply Ho; apply in_or_app; auto).
    assert (Hp : forall now, ~ In ROffline (snd (purge (look (run (a' ++ b)) n) now)) ->
                 fst (purge (look (run (a' ++ b)) n) now) = Some x).
    { intros t. rewrite Ex. cbn. destruct (stale timeout x t); cbn; tauto. }
    set (e0 := look (run (a' ++ b)) n) in *.
    remember (look (step (run (a' ++ b)) e) n) as e1 eqn:Ee1. clear Ee1 Hl Ee Ers Eas Ho.
    assert (NR : forall up, Sorted N.le ((u :: told n b) ++ [up]) -> update_from_status x up = fun ts => Entry (Some up) (en_info x) ts (en_retries x) (en_asked x)).
    { intros up S. unfold update_from_status. rewrite Exu. destruct (last_opt (u :: told n b)) as [v|] eqn:E; [|reflexivity].
      pose proof (Sorted_last_le _ _ _ S E). replace (up <? v)%N with false by lia. reflexivity. }
    destruct L as [e Hh Hr|now'|now'|up ts' now' anon e1 e2 news Hx|up ts' now' r e1 e2 news Hi Hre Hx|up i' ts' now' text'|ts' now' e1]; cbn [app].
    - assert (Eu : told_in n e = []). { destruct e; cbn in *; try reflexivity; destruct (_ =? _)%N; auto; discriminate. }
      rewrite Eu, app_nil_r. eauto 10.
    - cbn [told_in]. rewrite !app_nil_r, (Hp _ Hro). eauto 10.
    - cbn [told_in]. rewrite !app_nil_r, (Hp _ Hro). eauto 10.
    - assert (Hro' : ~ In ROffline (snd (purge e0 now'))) by (intros H1; apply Hro; apply in_or_app; auto).
      subst e2 e1. rewrite (Hp _ Hro'). cbn [base told_in] in *. rewrite N.eqb_refl in *. rewrite (NR up Hs). rewrite app_comm_cons, last_opt_snoc.
      split; [reflexivity|]. eexists. split; [reflexivity|]. auto.
    - assert (Hro' : ~ In ROffline (snd (purge e0 now'))) by (intros H1; apply Hro; apply in_or_app; auto).
      subst e2 e1. rewrite (Hp _ Hro') in *. cbn [base told_in] in *. rewrite N.eqb_refl in *. rewrite (NR up Hs) in Hi. contradiction.
    - cbn [told_in]. rewrite N.eqb_refl, app_comm_cons, last_opt_snoc. split; [reflexivity|]. eexists. split; [reflexivity|]. split; [reflexivity|discriminate].
    - cbn [told_in]. rewrite app_nil_r. split; [reflexivity|]. eexists. split; [reflexivity|]. subst e1. rewrite (Hp _ Hro). cbn. auto.
  Qed.
End Facts.

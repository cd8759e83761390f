(** The invariant of the scheduler. *)
From Verif.Base Require Import Prelude.
From Verif.Model Require Import Sched.
From Verif.Spec Require Import SchedSpec.
Require Import Coq.Sorting.Sorted.
Local Open Scope Z_scope.

(** ** The queue *)

Definition ev_lt {A} (a b : event A) : Prop :=
  ev_time a < ev_time b \/
  ev_time a = ev_time b /\
  (ev_prio a < ev_prio b \/ ev_prio a = ev_prio b /\ (ev_seq a < ev_seq b)%nat).

Lemma ev_ltb_spec {A} (a b : event A) : ev_ltb a b = true <-> ev_lt a b.
Proof. unfold ev_ltb, ev_lt. lia. Qed.

Lemma ev_lt_trans {A} (a b c : event A) : ev_lt a b -> ev_lt b c -> ev_lt a c.
Proof. unfold ev_lt. lia. Qed.

Lemma heappush_in {A} (e : event A) q x : In x (heappush e q) <-> x = e \/ In x q.
Proof.
  induction q as [|y q IH]; cbn; [firstorder|].
  destruct (ev_ltb e y); cbn; [firstorder|]. rewrite IH. firstorder.
Qed.

Lemma heappush_sorted {A} (e : event A) q :
  StronglySorted ev_lt q -> Forall (fun x => ev_seq x <> ev_seq e) q ->
  StronglySorted ev_lt (heappush e q).
Proof.
  induction 1 as [|y q Hq IH Hy]; intros Hs; cbn.
  - repeat constructor.
  - inversion Hs; subst. destruct (ev_ltb e y) eqn:E.
    + apply ev_ltb_spec in E. constructor; [constructor; auto|].
      constructor; auto. eapply Forall_impl; [|exact Hy]. intros; eapply ev_lt_trans; eauto.
    + constructor; auto. apply Forall_forall. intros x Hx. apply heappush_in in Hx.
      destruct Hx as [->|Hx]; [|rewrite Forall_forall in Hy; auto].
      assert (~ ev_lt e y) by (intros C; apply ev_ltb_spec in C; congruence).
      unfold ev_lt in *. lia.
Qed.

Lemma heappush_seqs {A} (e : event A) q :
  NoDup (map ev_seq q) -> Forall (fun x => ev_seq x <> ev_seq e) q ->
  NoDup (map ev_seq (heappush e q)).
Proof.
  induction q as [|y q IH]; intros Hn Hs; cbn.
  - constructor; auto.
  - inversion Hn; inversion Hs; subst. destruct (ev_ltb e y); cbn.
    + constructor; auto. cbn. rewrite in_map_iff. intros [E|(z & Hz & Hin)].
      * congruence.
      * rewrite Forall_forall in H6. apply (H6 z); auto.
    + constructor; auto. rewrite in_map_iff. intros (z & Hz & Hin). apply heappush_in in Hin.
      destruct Hin as [->|Hin]; [congruence|]. apply H1. rewrite <- Hz. now apply in_map.
Qed.

Lemma cancel_some {A} seq (q q' : list (event A)) : NoDup (map ev_seq q) ->
  cancel seq q = Some q' ->
  (forall x, In x q' <-> In x q /\ ev_seq x <> seq) /\ In seq (map ev_seq q).
Proof.
  revert q'. induction q as [|y q IH]; cbn; intros q' Hn H; [discriminate|].
  inversion Hn; subst. destruct (Nat.eqb_spec (ev_seq y) seq).
  - injection H as <-. split; [|auto]. intros x. split.
    + intros Hx. split; auto. intros E. apply H2. rewrite e, <- E. now apply in_map.
    + intros [[->|Hx] Hne]; [congruence|auto].
  - destruct (cancel seq q) as [r|] eqn:E; [|discriminate]. injection H as <-.
    destruct (IH r H3 eq_refl) as [IH1 IH2]. split; [|auto]. intros x. cbn. rewrite IH1.
    split; [intros [->|[? ?]]; auto|intros [[->|?] ?]; auto].
Qed.

Lemma cancel_sub {A} seq (q q' : list (event A)) : cancel seq q = Some q' ->
  exists a x b, q = a ++ x :: b /\ q' = a ++ b /\ ev_seq x = seq.
Proof.
  revert q'. induction q as [|y q IH]; cbn; intros q' H; [discriminate|].
  destruct (Nat.eqb_spec (ev_seq y) seq).
  - injection H as <-. exists [], y, q. auto.
  - destruct (cancel seq q) as [r|]; [|discriminate]. injection H as <-.
    destruct (IH r eq_refl) as (a & x & b & -> & -> & E). exists (y :: a), x, b. auto.
Qed.

Lemma cancel_none {A} seq (q : list (event A)) : cancel seq q = None <-> ~ In seq (map ev_seq q).
Proof.
  induction q as [|y q IH]; cbn; [tauto|].
  destruct (Nat.eqb_spec (ev_seq y) seq); [split; [discriminate|tauto]|].
  destruct (cancel seq q); split; try discriminate; intros H; try tauto.
  exfalso. destruct IH as [_ IH]. discriminate IH. tauto.
Qed.

Lemma StronglySorted_remove {A} (R : A -> A -> Prop) a x b :
  StronglySorted R (a ++ x :: b) -> StronglySorted R (a ++ b).
Proof.
  induction a as [|y a IH]; cbn; intros H; inversion H; subst; auto.
  constructor; auto. rewrite Forall_app in *. destruct H3 as [? Hb]. inversion Hb; auto.
Qed.

(** ** What a history says about a task *)

Record tk := Tk { k_periodic : bool; k_start : Z; k_param : Z; k_runs : nat; k_dead : bool }.

Definition step_tk (h : nat) (st : option tk) (o : obs) : option tk :=
  match o with
  | ODefer h' now d => if Nat.eqb h' h then Some (Tk false now d 0 false) else st
  | OPeriodic h' now p => if Nat.eqb h' h then Some (Tk true now p 0 false) else st
  | ORun h' _ _ _ _ =>
      if Nat.eqb h' h then
        match st with
        | Some k => Some (Tk (k_periodic k) (k_start k) (k_param k) (S (k_runs k)) (k_dead k))
        | None => None
        end
      else st
  | OCancel h' =>
      if Nat.eqb h' h then
        match st with
        | Some k => Some (Tk (k_periodic k) (k_start k) (k_param k) (k_runs k) true)
        | None => None
        end
      else st
  end.

Definition status (h : nat) (l : list obs) : option tk := fold_left (step_tk h) l None.

Lemma status_snoc h l o : status h (l ++ [o]) = step_tk h (status h l) o.
Proof. unfold status. now rewrite fold_left_app. Qed.

Definition obs_task (o : obs) : nat :=
  match o with ODefer h _ _ | OPeriodic h _ _ | ORun h _ _ _ _ | OCancel h => h end.

Lemma status_other h l o : obs_task o <> h -> status h (l ++ [o]) = status h l.
Proof.
  intros H. rewrite status_snoc. destruct o; cbn in *;
    (destruct (Nat.eqb_spec h0 h); [congruence|reflexivity]).
Qed.

(** The time and priority of the event of a task that is still to run. *)
Definition expected (k : tk) : option (Z * Z) :=
  if k_dead k then None
  else if k_periodic k then Some (k_start k + Z.of_nat (S (k_runs k)) * k_param k, 0)
  else match k_runs k with O => Some (k_start k + k_param k, 1) | _ => None end.

Definition ok_obs (l : list obs) (o : obs) : Prop :=
  match o with
  | ODefer h _ _ | OPeriodic h _ _ => status h l = None
  | ORun h due prio _ now =>
      due <= now /\ exists k, status h l = Some k /\ expected k = Some (due, prio)
  | OCancel h => exists k, status h l = Some k /\ expected k <> None
  end.

Inductive legal : list obs -> Prop :=
| legal_nil : legal []
| legal_snoc l o : legal l -> ok_obs l o -> legal (l ++ [o]).

Lemma status_app_some h l1 l2 : status h l1 <> None -> status h (l1 ++ l2) <> None.
Proof.
  revert l1. induction l2 as [|o l2 IH]; intros l1 H; [now rewrite app_nil_r|].
  replace (l1 ++ o :: l2) with ((l1 ++ [o]) ++ l2) by (now rewrite <- app_assoc).
  apply IH. rewrite status_snoc. destruct (status h l1) eqn:E; [|congruence].
  destruct o; cbn; destruct (Nat.eqb _ _); discriminate.
Qed.

Lemma legal_task l : legal l -> forall o, In o l -> status (obs_task o) l <> None.
Proof.
  induction 1 as [|l o Hl IH Ho]; intros o' Hin; [destruct Hin|].
  apply in_app_or in Hin. destruct Hin as [Hin|[<-|[]]].
  - apply status_app_some. now apply IH.
  - rewrite status_snoc. destruct o; cbn; rewrite Nat.eqb_refl; try discriminate.
    + destruct Ho as (_ & k & -> & _). discriminate.
    + destruct Ho as (k & -> & _). discriminate.
Qed.

Definition act_is (a : action) (k : tk) : Prop :=
  match a with
  | Once _ => k_periodic k = false
  | Every _ p => k_periodic k = true /\ p = k_param k
  end.

(** ** The invariant *)

Definition obs_now (o : obs) : option Z :=
  match o with
  | ODefer _ n _ | OPeriodic _ n _ | ORun _ _ _ _ n => Some n
  | OCancel _ => None
  end.

Record inv (clk : nat -> Z) (s : sched) : Prop := {
  i_sorted : StronglySorted ev_lt (s_queue s);
  i_nodup : NoDup (map ev_seq (s_queue s));
  i_seqs : Forall (fun e => (ev_seq e < s_seq s)%nat) (s_queue s);
  i_legal : legal (s_log s);
  i_fresh : forall h, (s_tasks s <= h)%nat -> status h (s_log s) = None;
  i_old : forall h, (h < s_tasks s)%nat -> status h (s_log s) <> None;
  i_sound : forall e, In e (s_queue s) ->
    exists k, status (task (ev_act e)) (s_log s) = Some k /\
              expected k = Some (ev_time e, ev_prio e) /\ act_is (ev_act e) k /\
              dget Nat.eqb (s_holders s) (task (ev_act e)) = Some e;
  i_complete : forall h k x, status h (s_log s) = Some k -> expected k = Some x ->
    exists e, In e (s_queue s) /\ task (ev_act e) = h;
  i_held : forall h e, dget Nat.eqb (s_holders s) h = Some e ->
    (h < s_tasks s)%nat /\ (ev_seq e < s_seq s)%nat;
  i_held_inj : forall h h' e e',
    dget Nat.eqb (s_holders s) h = Some e -> dget Nat.eqb (s_holders s) h' = Some e' ->
    ev_seq e = ev_seq e' -> h = h';
  i_held_seq : forall h h' e e', (h < h')%nat -> 
    dget Nat.eqb (s_holders s) h = Some e -> dget Nat.eqb (s_holders s) h' = Some e' ->
    (forall k, status h (s_log s) = Some k -> k_periodic k = false) ->
    (ev_seq e < ev_seq e')%nat;
  i_held_run : forall h d p q n, In (ORun h d p q n) (s_log s) ->
    (forall k, status h (s_log s) = Some k -> k_periodic k = false) ->
    exists e, dget Nat.eqb (s_holders s) h = Some e /\ ev_seq e = q;
  i_now : forall o n, In o (s_log s) -> obs_now o = Some n ->
    exists i, (i < s_reads s)%nat /\ n = clk i
}.

Lemma inv_new clk : inv clk new_sched.
Proof.
  constructor; cbn; try (constructor; fail); try (intros; contradiction); try discriminate; try lia;
    try reflexivity; intros; discriminate.
Qed.

Lemma nat_eqb_spec a b : Nat.eqb a b = true <-> a = b.
Proof. apply Nat.eqb_eq. Qed.

Ltac dgs := rewrite ?(dget_dset_same Nat.eqb nat_eqb_spec) in *.

Lemma inv_read clk s : inv clk s -> inv clk (snd (read clk s)).
Proof.
  intros []; constructor; cbn; auto. intros o n Ho Hn. destruct (i_now0 o n Ho Hn) as (i & ? & ?).
  exists i. split; auto; lia.
Qed.

(** Creating a task. *)
Lemma inv_create clk s t prio (per : bool) now param :
  inv clk s -> (exists i, (i < s_reads s)%nat /\ now = clk i) ->
  t = now + param -> prio = (if per then 0 else 1) ->
  inv clk (observe (new_task (enter s t prio
         (if per then Every (s_tasks s) param else Once (s_tasks s))))
        (if per then OPeriodic (s_tasks s) now param else ODefer (s_tasks s) now param)).
Proof.
  intros I Hnow -> ->. set (o := if per then OPeriodic (s_tasks s) now param else ODefer (s_tasks s) now param). set (a := if per then Every _ _ else _).
  assert (Ho : obs_task o = s_tasks s) by (destruct per; reflexivity).
  assert (Ha : task a = s_tasks s) by (destruct per; reflexivity).
  assert (Hst : status (s_tasks s) (s_log s ++ [o]) = Some (Tk per now param 0 false)).
  { rewrite status_snoc. unfold o; destruct per; cbn; now rewrite Nat.eqb_refl. }
  set (e := Event (now + param) (if per then 0 else 1) (s_seq s) a).
  assert (Hlt : Forall (fun x => ev_seq x <> ev_seq e) (s_queue s)).
  { eapply Forall_impl; [|apply (i_seqs _ _ I)]. cbn. lia. }
  constructor; cbn [s_queue s_seq s_holders s_tasks s_reads s_log observe new_task enter]; fold e.
  - apply heappush_sorted; auto. apply I.
  - apply heappush_seqs; auto. apply I.
  - apply Forall_forall. intros x Hx. apply heappush_in in Hx. destruct Hx as [->|Hx]; [cbn; lia|].
    pose proof (i_seqs _ _ I) as F. rewrite Forall_forall in F. specialize (F x Hx). lia.
  - constructor; [apply I|]. unfold o; destruct per; cbn; apply (i_fresh _ _ I); lia.
  - intros h Hh. rewrite status_other by (rewrite Ho; lia). apply (i_fresh _ _ I). lia.
  - intros h Hh. destruct (Nat.eq_dec h (s_tasks s)) as [->|Hne]; [congruence|].
    rewrite status_other by (rewrite Ho; auto). apply (i_old _ _ I). lia.
  - intros x Hx. apply heappush_in in Hx. destruct Hx as [->|Hx].
    + cbn [ev_act e]. rewrite Ha. eexists. split; [exact Hst|].
      rewrite (dget_dset_same _ nat_eqb_spec). unfold a, expected; destruct per; cbn -[Z.mul Z.of_nat];
        (split; [f_equal; f_equal; lia|auto]).
    + destruct (i_sound _ _ I x Hx) as (k & Hk & He & Hact & Hd).
      assert (task (ev_act x) <> s_tasks s).
      { intros E. rewrite E in Hk. rewrite (i_fresh _ _ I) in Hk by lia. discriminate. }
      exists k. rewrite status_other by (rewrite Ho; auto).
      rewrite (dget_dset_other _ nat_eqb_spec) by (cbn; congruence). auto.
  - intros h k x Hk Hx. destruct (Nat.eq_dec h (s_tasks s)) as [->|Hne].
    + exists e. rewrite heappush_in. auto.
    + rewrite status_other in Hk by (rewrite Ho; auto).
      destruct (i_complete _ _ I h k x Hk Hx) as (e' & ? & ?). exists e'. rewrite heappush_in. auto.
  - intros h x Hx. destruct (Nat.eq_dec (s_tasks s) h) as [<-|Hne].
    + cbn [ev_act e] in Hx. rewrite Ha, (dget_dset_same _ nat_eqb_spec) in Hx.
      injection Hx as <-. cbn; lia.
    + rewrite (dget_dset_other _ nat_eqb_spec) in Hx by (cbn; congruence).
      destruct (i_held _ _ I h x Hx). lia.
  - intros h h' x x' Hx Hx' E.
    destruct (Nat.eq_dec (s_tasks s) h) as [<-|Hne], (Nat.eq_dec (s_tasks s) h') as [<-|Hne']; auto;
      cbn [ev_act e] in Hx, Hx'; rewrite Ha in *;
      rewrite ?(dget_dset_same _ nat_eqb_spec) in Hx; rewrite ?(dget_dset_same _ nat_eqb_spec) in Hx';
      rewrite ?(dget_dset_other _ nat_eqb_spec) in Hx by congruence;
      rewrite ?(dget_dset_other _ nat_eqb_spec) in Hx' by congruence.
    + injection Hx as <-. apply (i_held _ _ I) in Hx'. cbn in E. lia.
    + injection Hx' as <-. apply (i_held _ _ I) in Hx. cbn in E. lia.
    + eapply (i_held_inj _ _ I); eauto.
  - intros h h' x x' Hlt' Hx Hx' Hper.
    assert (h <> s_tasks s).
    { intros ->. rewrite (dget_dset_other _ nat_eqb_spec) in Hx' by (cbn; rewrite Ha; lia).
      apply (i_held _ _ I) in Hx'. lia. }
    rewrite (dget_dset_other _ nat_eqb_spec) in Hx by (cbn; congruence).
    rewrite status_other in Hper by (rewrite Ho; auto).
    destruct (Nat.eq_dec (s_tasks s) h') as [<-|Hne].
    + cbn [ev_act e] in Hx'. rewrite Ha, (dget_dset_same _ nat_eqb_spec) in Hx'.
      injection Hx' as <-. cbn. apply (i_held _ _ I) in Hx. lia.
    + rewrite (dget_dset_other _ nat_eqb_spec) in Hx' by (cbn; congruence).
      eapply (i_held_seq _ _ I); eauto.
  - intros h d p q n Hin Hper. apply in_app_or in Hin. destruct Hin as [Hin|[Hin|[]]].
    2:{ unfold o in Hin; destruct per; discriminate. }
    assert (h <> s_tasks s).
    { intros ->. apply (legal_task _ (i_legal _ _ I)) in Hin. apply Hin. apply (i_fresh _ _ I). cbn. lia. }
    rewrite status_other in Hper by (rewrite Ho; auto).
    rewrite (dget_dset_other _ nat_eqb_spec) by (cbn; congruence).
    eapply (i_held_run _ _ I); eauto.
  - intros o' n Hin Hn. apply in_app_or in Hin. destruct Hin as [Hin|[<-|[]]].
    + eapply (i_now _ _ I); eauto.
    + unfold o in Hn; destruct per; cbn in Hn; injection Hn as <-; auto.
Qed.


(** Cancelling. *)
Lemma inv_cancel clk s h : inv clk s -> inv clk (fst (cancel_handle s h)).
Proof.
  intros I. unfold cancel_handle. destruct (dget Nat.eqb (s_holders s) h) as [e|] eqn:Eh; [|exact I].
  destruct (cancel (ev_seq e) (s_queue s)) as [q|] eqn:Ec; [|exact I]. cbn [fst].
  destruct (cancel_sub _ _ _ Ec) as (qa & x & qb & Eq & -> & Ex).
  destruct (cancel_some _ _ _ (i_nodup _ _ I) Ec) as [Hq _].
  assert (Hx : In x (s_queue s)) by (rewrite Eq; apply in_or_app; cbn; auto).
  destruct (i_sound _ _ I x Hx) as (k & Hk & He & Hact & Hd).
  (* the event held for [h] is the one cancelled *)
  assert (Eth : task (ev_act x) = h) by (eapply (i_held_inj _ _ I); eauto).
  rewrite Eth in *. assert (x = e) by congruence. subst x.
  assert (Hst : status h (s_log s ++ [OCancel h]) =
                Some (Tk (k_periodic k) (k_start k) (k_param k) (k_runs k) true)).
  { rewrite status_snoc, Hk. cbn. now rewrite Nat.eqb_refl. }
  assert (Hoth : forall h', h' <> h -> status h' (s_log s ++ [OCancel h]) = status h' (s_log s)).
  { intros. apply status_other. cbn. auto. }
  assert (Hper : forall h', (forall k, status h' (s_log s ++ [OCancel h]) = Some k -> k_periodic k = false) ->
                 forall k, status h' (s_log s) = Some k -> k_periodic k = false).
  { intros h' Hp k' Hk'. destruct (Nat.eq_dec h' h) as [->|Hne].
    - specialize (Hp _ Hst). cbn in Hp. congruence.
    - apply Hp. now rewrite Hoth. }
  constructor; cbn [s_queue s_seq s_holders s_tasks s_reads s_log observe].
  - pose proof (i_sorted _ _ I) as S. rewrite Eq in S. eapply StronglySorted_remove; eauto.
  - pose proof (i_nodup _ _ I) as S. rewrite Eq, map_app in S. cbn in S.
    rewrite map_app. eapply NoDup_remove_1; eauto.
  - pose proof (i_seqs _ _ I) as S. rewrite Eq, Forall_app in S. destruct S as [S1 S2].
    inversion S2; subst. apply Forall_app. auto.
  - constructor; [apply I|]. exists k. split; auto. congruence.
  - intros h' Hh. assert (h' <> h).
    { intros ->. rewrite (i_fresh _ _ I) in Hk by auto. discriminate. }
    rewrite Hoth by auto. now apply (i_fresh _ _ I).
  - intros h' Hh. destruct (Nat.eq_dec h' h) as [->|Hne]; [congruence|].
    rewrite Hoth by auto. now apply (i_old _ _ I).
  - intros y Hy. apply Hq in Hy. destruct Hy as [Hy Hne].
    destruct (i_sound _ _ I y Hy) as (ky & Hky & Hey & Hacty & Hdy).
    assert (task (ev_act y) <> h) by (intros E; rewrite E in Hdy; congruence).
    exists ky. rewrite Hoth by auto. auto.
  - intros h' k' y Hk' Hy. destruct (Nat.eq_dec h' h) as [->|Hne].
    + rewrite Hst in Hk'. injection Hk' as <-. discriminate.
    + rewrite Hoth in Hk' by auto. destruct (i_complete _ _ I h' k' y Hk' Hy) as (e' & He' & Ht).
      exists e'. split; auto. apply Hq. split; auto. intros E.
      destruct (i_sound _ _ I e' He') as (_ & _ & _ & _ & Hd').
      apply Hne. rewrite <- Ht. eapply (i_held_inj _ _ I); eauto.
  - apply (i_held _ _ I).
  - apply (i_held_inj _ _ I).
  - intros h1 h2 e1 e2 L H1 H2 Hp. eapply (i_held_seq _ _ I); eauto.
  - intros h' d p q n Hin Hp. apply in_app_or in Hin. destruct Hin as [Hin|[Hin|[]]]; [|discriminate].
    eapply (i_held_run _ _ I); eauto.
  - intros o n Hin Hn. apply in_app_or in Hin. destruct Hin as [Hin|[<-|[]]]; [|discriminate].
    eapply (i_now _ _ I); eauto.
Qed.

(** The state in which the callback of [e] starts. *)
Definition started (e : event action) (now : Z) (s : sched) : sched :=
  observe (match ev_act e with
           | Once _ => s
           | Every h p => enter s (ev_time e + p) 0 (Every h p)
           end) (ORun (task (ev_act e)) (ev_time e) (ev_prio e) (ev_seq e) now).

Lemma inv_started clk s e q now : inv clk s -> s_queue s = e :: q -> ev_time e <= now ->
  (exists i, (i < s_reads s)%nat /\ now = clk i) ->
  inv clk (started e now (pop s)).
Proof.
  intros I Eq Hdue Hnow. unfold started.
  set (o := ORun _ _ _ _ _). set (h := task (ev_act e)) in *.
  assert (Hin : In e (s_queue s)) by (rewrite Eq; cbn; auto).
  destruct (i_sound _ _ I e Hin) as (k & Hk & He & Hact & Hd). fold h in Hk, Hd.
  pose proof (i_sorted _ _ I) as Ss. rewrite Eq in Ss. inversion Ss as [|? ? S1 S2]; subst.
  pose proof (i_nodup _ _ I) as Nd. rewrite Eq in Nd. cbn in Nd. inversion Nd as [|? ? Nd1 Nd2]; subst.
  pose proof (i_seqs _ _ I) as Sq. rewrite Eq in Sq. inversion Sq as [|? ? Sq1 Sq2]; subst.
  assert (Hst : status h (s_log s ++ [o]) =
                Some (Tk (k_periodic k) (k_start k) (k_param k) (S (k_runs k)) (k_dead k))).
  { rewrite status_snoc, Hk. unfold o. cbn. now rewrite Nat.eqb_refl. }
  assert (Hoth : forall h', h' <> h -> status h' (s_log s ++ [o]) = status h' (s_log s)).
  { intros. apply status_other. unfold o. cbn. auto. }
  assert (Hper : forall h', (forall k, status h' (s_log s ++ [o]) = Some k -> k_periodic k = false) ->
                 forall k, status h' (s_log s) = Some k -> k_periodic k = false).
  { intros h' Hp k' Hk'. destruct (Nat.eq_dec h' h) as [->|Hne].
    - specialize (Hp _ Hst). cbn in Hp. congruence.
    - apply Hp. now rewrite Hoth. }
  assert (Hlegal : legal (s_log s ++ [o])).
  { constructor; [apply I|]. unfold o. cbn. split; auto. exists k. auto. }
  assert (Hq : forall y, In y q -> y <> e /\ task (ev_act y) <> h).
  { intros y Hy. assert (y <> e).
    { intros ->. apply Nd1. now apply in_map. }
    split; auto. intros E.
    destruct (i_sound _ _ I y) as (_ & _ & _ & _ & Hdy); [rewrite Eq; cbn; auto|]. congruence. }
  assert (Htasks : (h < s_tasks s)%nat).
  { apply (i_held _ _ I) in Hd. tauto. }
  assert (Hnows : forall o' n, In o' (s_log s ++ [o]) -> obs_now o' = Some n ->
            exists i, (i < s_reads s)%nat /\ n = clk i).
  { intros o' n Hi Hn. apply in_app_or in Hi. destruct Hi as [Hi|[<-|[]]].
    - eapply (i_now _ _ I); eauto.
    - unfold o in Hn. injection Hn as <-. exact Hnow. }
  destruct (ev_act e) as [h0|h0 p] eqn:Ea; cbn [task] in h; subst h.
  - (* a deferred call *)
    cbn in Hact. constructor; cbn [s_queue s_seq s_holders s_tasks s_reads s_log observe pop];
      rewrite ?Eq; cbn [tl]; auto.
    + intros h' Hh. rewrite Hoth by lia. now apply (i_fresh _ _ I).
    + intros h' Hh. destruct (Nat.eq_dec h' h0) as [->|Hne]; [congruence|].
      rewrite Hoth by auto. now apply (i_old _ _ I).
    + intros y Hy. destruct (Hq y Hy) as [_ Hne]. rewrite Hoth by auto.
      apply (i_sound _ _ I). rewrite Eq. cbn; auto.
    + intros h' k' x Hk' Hx. destruct (Nat.eq_dec h' h0) as [->|Hne].
      * rewrite Hst in Hk'. injection Hk' as <-. unfold expected in Hx. cbn in Hx. rewrite Hact in Hx.
        destruct (k_dead k); discriminate.
      * rewrite Hoth in Hk' by auto. destruct (i_complete _ _ I h' k' x Hk' Hx) as (e' & He' & Ht).
        rewrite Eq in He'. destruct He' as [<-|He']; [exfalso; apply Hne; rewrite <- Ht, Ea; auto|eauto].
    + apply (i_held _ _ I).
    + apply (i_held_inj _ _ I).
    + intros h1 h2 e1 e2 L H1 H2 Hp. eapply (i_held_seq _ _ I); eauto.
    + intros h' d p q' n Hi Hp. apply in_app_or in Hi. destruct Hi as [Hi|[Hi|[]]].
      * eapply (i_held_run _ _ I); eauto.
      * unfold o in Hi. cbn in Hi. injection Hi as <- <- <- <- <-. eauto.
  - (* a periodic call *)
    destruct Hact as [Hact ->].
    set (e' := Event (ev_time e + k_param k) 0 (s_seq s) (Every h0 (k_param k))).
    assert (He2 : expected (Tk (k_periodic k) (k_start k) (k_param k) (S (k_runs k)) (k_dead k)) =
                  Some (ev_time e', 0)).
    { unfold expected in *. cbn [k_dead k_periodic k_start k_runs k_param] in *.
      rewrite Hact in *. destruct (k_dead k); [discriminate|].
      assert (ev_time e = k_start k + Z.of_nat (S (k_runs k)) * k_param k) as E by congruence.
      cbn [ev_time e']. rewrite E. f_equal. f_equal. rewrite (Nat2Z.inj_succ (S (k_runs k))). lia. }
    assert (Hlt : Forall (fun x => ev_seq x <> ev_seq e') q).
    { eapply Forall_impl; [|exact Sq2]. cbn. lia. }
    constructor; cbn [s_queue s_seq s_holders s_tasks s_reads s_log observe pop enter];
      rewrite ?Eq; cbn [tl]; fold e'; auto.
    + apply heappush_sorted; auto.
    + apply heappush_seqs; auto.
    + apply Forall_forall. intros x Hx. apply heappush_in in Hx. destruct Hx as [->|Hx]; [cbn; lia|].
      rewrite Forall_forall in Sq2. specialize (Sq2 x Hx). lia.
    + intros h' Hh. rewrite Hoth by lia. now apply (i_fresh _ _ I).
    + intros h' Hh. destruct (Nat.eq_dec h' h0) as [->|Hne]; [congruence|].
      rewrite Hoth by auto. now apply (i_old _ _ I).
    + intros y Hy. apply heappush_in in Hy. destruct Hy as [->|Hy].
      * cbn [ev_act e' task]. eexists. split; [exact Hst|]. split; [exact He2|].
        split; [cbn; auto|]. apply (dget_dset_same _ nat_eqb_spec).
      * destruct (Hq y Hy) as [_ Hne]. rewrite Hoth by auto. cbn [task].
        rewrite (dget_dset_other _ nat_eqb_spec) by auto.
        apply (i_sound _ _ I). rewrite Eq. cbn; auto.
    + intros h' k' x Hk' Hx. destruct (Nat.eq_dec h' h0) as [->|Hne].
      * exists e'. rewrite heappush_in. auto.
      * rewrite Hoth in Hk' by auto. destruct (i_complete _ _ I h' k' x Hk' Hx) as (y & Hy & Ht).
        rewrite Eq in Hy. destruct Hy as [<-|Hy]; [exfalso; apply Hne; rewrite <- Ht, Ea; auto|].
        exists y. rewrite heappush_in. auto.
    + intros h' x Hx. cbn [task] in Hx. destruct (Nat.eq_dec h0 h') as [<-|Hne].
      * rewrite (dget_dset_same _ nat_eqb_spec) in Hx. injection Hx as <-. cbn. lia.
      * rewrite (dget_dset_other _ nat_eqb_spec) in Hx by auto. apply (i_held _ _ I) in Hx. lia.
    + intros h1 h2 e1 e2 H1 H2 E. cbn [task] in *.
      destruct (Nat.eq_dec h0 h1) as [<-|Hne], (Nat.eq_dec h0 h2) as [<-|Hne']; auto;
        rewrite ?(dget_dset_same _ nat_eqb_spec) in H1; rewrite ?(dget_dset_same _ nat_eqb_spec) in H2;
        rewrite ?(dget_dset_other _ nat_eqb_spec) in H1 by auto;
        rewrite ?(dget_dset_other _ nat_eqb_spec) in H2 by auto.
      * injection H1 as <-. apply (i_held _ _ I) in H2. cbn in E. lia.
      * injection H2 as <-. apply (i_held _ _ I) in H1. cbn in E. lia.
      * eapply (i_held_inj _ _ I); eauto.
    + intros h1 h2 e1 e2 L H1 H2 Hp. cbn [task] in *.
      destruct (Nat.eq_dec h0 h1) as [<-|Hne].
      { specialize (Hp _ Hst). cbn in Hp. congruence. }
      rewrite (dget_dset_other _ nat_eqb_spec) in H1 by auto.
      destruct (Nat.eq_dec h0 h2) as [<-|Hne'].
      * rewrite (dget_dset_same _ nat_eqb_spec) in H2. injection H2 as <-.
        apply (i_held _ _ I) in H1. cbn. lia.
      * rewrite (dget_dset_other _ nat_eqb_spec) in H2 by auto. eapply (i_held_seq _ _ I); eauto.
    + intros h' d p q' n Hi Hp. cbn [task].
      assert (h' <> h0).
      { intros ->. specialize (Hp _ Hst). cbn in Hp. congruence. }
      rewrite (dget_dset_other _ nat_eqb_spec) by auto.
      apply in_app_or in Hi. destruct Hi as [Hi|[Hi|[]]].
      * eapply (i_held_run _ _ I); eauto.
      * unfold o in Hi. cbn in Hi. congruence.
Qed.

(** ** Invariants of whole executions *)

Section Exec.
  Variable clk : nat -> Z.
  Variable beh : list obs -> list uop * bool.

  Lemma inv_uop s op : inv clk s -> inv clk (fst (apply_uop clk s op)).
  Proof.
    intros I. destruct op; cbn [apply_uop read fst].
    - apply (inv_create clk (snd (read clk s)) _ 1 false); auto; [now apply inv_read|].
      exists (s_reads s). cbn. auto.
    - apply (inv_create clk (snd (read clk s)) _ 0 true); auto; [now apply inv_read|].
      exists (s_reads s). cbn. auto.
    - destruct (cancel_handle s h) as [s' ok] eqn:E.
      change s' with (fst (s', ok)). rewrite <- E. now apply inv_cancel.
    - now apply inv_cancel.
  Qed.

  (** A property of states is kept by user code if each operation keeps it. *)
  Lemma uops_ind (P : sched -> Prop) ops s :
    (forall s op, In op ops -> P s -> P (fst (apply_uop clk s op))) -> P s ->
    P (fst (apply_uops clk s ops)).
  Proof.
    revert s. induction ops as [|op ops IH]; cbn; intros s Hop Hs; auto.
    pose proof (Hop s op (or_introl eq_refl) Hs) as H1.
    destruct (apply_uop clk s op) as [s1 [x|]]; auto.
  Qed.

  Lemma callback_ind (P : sched -> Prop) s :
    (forall s' op, In op (fst (beh (s_log s))) -> P s' -> P (fst (apply_uop clk s' op))) -> P s ->
    P (fst (callback clk beh s)).
  Proof.
    intros Hop Hs. unfold callback. destruct (beh (s_log s)) as [ops r].
    pose proof (uops_ind P ops s Hop Hs) as H.
    destruct (apply_uops clk s ops) as [s' [x|]]; exact H.
  Qed.

  Lemma exec_started e now s : exec clk beh e now s = callback clk beh (started e now s).
  Proof. reflexivity. Qed.

  Lemma inv_exec s e q now : inv clk s -> s_queue s = e :: q -> ev_time e <= now ->
    (exists i, (i < s_reads s)%nat /\ now = clk i) ->
    inv clk (fst (exec clk beh e now (pop s))).
  Proof.
    intros. rewrite exec_started. apply callback_ind; [|eapply inv_started; eauto].
    intros; now apply inv_uop.
  Qed.

  (** One iteration of the loop. *)
  Lemma run_step (P : sched -> Prop) :
    (forall s, P s -> P (snd (read clk s))) ->
    (forall s e q now, P s -> s_queue s = e :: q -> ev_time e <= now ->
       (exists i, (i < s_reads s)%nat /\ now = clk i) ->
       P (fst (exec clk beh e now (pop s)))) ->
    forall fuel s, P s -> P (fst (run_scheduler clk beh fuel s)).
  Proof.
    intros Hr He. unfold run_scheduler. induction fuel as [|fuel IH]; cbn [run]; intros s Hs; auto.
    destruct (s_queue s) as [|e q] eqn:Eq; auto.
    cbn [read]. specialize (Hr s Hs). cbn [read snd] in Hr. set (s1 := Sched _ _ _ _ _ _) in *.
    destruct (Z.ltb_spec (clk (s_reads s)) (ev_time e)); auto.
    specialize (He s1 e q (clk (s_reads s)) Hr Eq H).
    destruct (exec clk beh e (clk (s_reads s)) (pop s1)) as [s2 [x|]]; cbn [fst] in *.
    - apply He. exists (s_reads s). cbn. lia.
    - apply IH, He. exists (s_reads s). cbn. lia.
  Qed.

  Lemma inv_run fuel s : inv clk s -> inv clk (fst (run_scheduler clk beh fuel s)).
  Proof.
    apply run_step.
    - intros; now apply inv_read.
    - intros; eapply inv_exec; eauto.
  Qed.

  Lemma inv_poll fuel s : inv clk s -> inv clk (fst (poll clk beh fuel s)).
  Proof.
    intros I. pose proof (inv_run fuel s I) as H. unfold poll.
    destruct (run_scheduler clk beh fuel s) as [s' []]; cbn [fst] in *; auto;
      try (now apply inv_read).
  Qed.

  Lemma inv_history ops : inv clk (history clk beh ops).
  Proof.
    unfold history. assert (G : forall s, inv clk s -> inv clk (fold_left (apply_hop clk beh) ops s)).
    { induction ops as [|o ops IH]; cbn; intros s I; auto. apply IH. destruct o; cbn.
      - now apply inv_uop.
      - now apply inv_poll. }
    apply G, inv_new.
  Qed.
End Exec.

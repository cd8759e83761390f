(** Polls and callbacks that raise. *)
From Verif.Base Require Import Prelude.
From Verif.Model Require Import Sched.
Local Open Scope Z_scope.

(** ** A poll that returns has had no callback that raises *)
Section Raise.
  Variable clk : nat -> Z.
  Variable beh : list obs -> list uop * bool.
  Definition is_run (o : obs) : bool := match o with ORun _ _ _ _ _ => true | _ => false end.
  Lemma uop_log s op : exists ext, s_log (fst (apply_uop clk s op)) = s_log s ++ ext /\ Forall (fun o => is_run o = false) ext.
  Proof.
    assert (forall s h, exists ext, s_log (fst (cancel_handle s h)) = s_log s ++ ext /\ Forall (fun o => is_run o = false) ext) as C.
    { clear. intros s h. unfold cancel_handle. destruct (dget _ _ _) as [e|]; [|exists []; rewrite app_nil_r; split; [reflexivity|constructor]].
      destruct (cancel _ _); [|exists []; rewrite app_nil_r; split; [reflexivity|constructor]].
      eexists. split; [reflexivity|]. repeat constructor. }
    destruct op; cbn [apply_uop read].
    - eexists. split; [reflexivity|]. repeat constructor.
    - eexists. split; [reflexivity|]. repeat constructor.
    - specialize (C s h). destruct (cancel_handle s h). exact C.
    - exact (C s h).
  Qed.
  Lemma uops_log ops : forall s, exists ext, s_log (fst (apply_uops clk s ops)) = s_log s ++ ext /\ Forall (fun o => is_run o = false) ext.
  Proof.
    induction ops as [|op ops IH]; intros s; cbn [apply_uops]; [exists []; rewrite app_nil_r; split; [reflexivity|constructor]|].
    destruct (uop_log s op) as (e1 & E1 & F1). destruct (apply_uop clk s op) as [s1 [x|]]; cbn [fst] in *; [exists e1; auto|].
    destruct (IH s1) as (e2 & E2 & F2). exists (e1 ++ e2). rewrite E2, E1, <- app_assoc. split; [reflexivity|]. apply Forall_app. auto.
  Qed.
  Lemma split_at {A} (a b c : list A) x d : a ++ b = c ++ x :: d ->
    (exists d1, a = c ++ x :: d1 /\ d = d1 ++ b) \/ exists c1, c = a ++ c1 /\ b = c1 ++ x :: d.
  Proof.
    revert c. induction a as [|y a IH]; intros c E; cbn in E; [right; exists c; auto|].
    destruct c as [|z c]; cbn in E; injection E as -> E.
    - left. exists a. auto.
    - destruct (IH c E) as [(d1 & -> & ->)|(c1 & -> & ->)]; [left; exists d1; auto|right; exists c1; auto].
  Qed.
  (** All runs in [ext], which follows [l], ended normally. *)
  Definition no_raise (l ext : list obs) : Prop :=
    forall a o b, ext = a ++ o :: b -> is_run o = true -> snd (beh (l ++ a ++ [o])) = false.
  Lemma exec_log e now s s' : exec clk beh e now s = (s', None) -> exists ext, s_log s' = s_log s ++ ext /\ no_raise (s_log s) ext.
  Proof.
    unfold exec. set (o := ORun _ _ _ _ _). set (s1 := match ev_act e with Once _ => _ | Every _ _ => _ end).
    assert (s_log s1 = s_log s) as L by (unfold s1; destruct (ev_act e); reflexivity). clearbody s1.
    unfold callback. destruct (beh (s_log (observe s1 o))) as [ops r] eqn:B.
    destruct (uops_log ops (observe s1 o)) as (ext & E & F). destruct (apply_uops clk (observe s1 o) ops) as [s2 [x|]]; [discriminate|].
    destruct r; [discriminate|]. intros H. injection H as <-. cbn [fst] in E. exists (o :: ext). cbn [observe s_log] in *. rewrite L in *.
    split; [rewrite E, <- app_assoc; reflexivity|]. intros a o' b X R. destruct a as [|y a]; cbn [app] in X.
    - injection X as <- <-. cbn [app]. rewrite B. reflexivity.
    - injection X as <- ->. apply Forall_app in F as (_ & F). apply Forall_cons_iff in F as (F & _). congruence.
  Qed.
  Lemma run_log fuel : forall s s' r, run_scheduler clk beh fuel s = (s', r) -> (forall x, r <> Raised x) ->
    exists ext, s_log s' = s_log s ++ ext /\ no_raise (s_log s) ext.
  Proof.
    unfold run_scheduler. induction fuel as [|fuel IH]; cbn [run]; intros s s' r H N.
    - injection H as <- <-. exists []. rewrite app_nil_r. split; [reflexivity|]. intros a o b X. destruct a; discriminate X.
    - destruct (s_queue s) as [|e q]; [injection H as <- <-; exists []; rewrite app_nil_r; split; [reflexivity|]; intros a o b X; destruct a; discriminate X|].
      unfold read in H. set (s1 := Sched _ _ _ _ _ _) in H. assert (s_log s1 = s_log s) as L by reflexivity. clearbody s1.
      destruct (_ <? _).
      + injection H as <- <-. exists []. rewrite app_nil_r. split; [exact L|]. intros a o b X. destruct a; discriminate X.
      + destruct (exec clk beh e (clk (s_reads s)) (pop s1)) as [s2 [x|]] eqn:E.
        { injection H as <- <-. exfalso. exact (N x eq_refl). }
        destruct (exec_log _ _ _ _ E) as (e1 & E1 & N1). destruct (IH _ _ _ H N) as (e2 & E2 & N2).
        change (s_log (pop s1)) with (s_log s1) in *. rewrite L in *. exists (e1 ++ e2). rewrite E2, E1, <- app_assoc. split; [reflexivity|].
        intros a o b X R. apply split_at in X as [(d1 & X & _)|(c1 & -> & X)]; [exact (N1 _ _ _ X R)|].
        specialize (N2 _ _ _ X R). rewrite E1 in N2. rewrite <- app_assoc in N2. rewrite <- app_assoc. exact N2.
  Qed.
  Lemma poll_no_raise fuel s s' dl l1 o l2 : poll clk beh fuel s = (s', Ok dl) -> s_log s' = l1 ++ o :: l2 ->
    (length (s_log s) <= length l1)%nat -> is_run o = true -> snd (beh (l1 ++ [o])) = false.
  Proof.
    unfold poll. destruct (run_scheduler clk beh fuel s) as [s2 r] eqn:E. intros H L N R.
    assert (s_log s2 = s_log s' /\ forall x, r <> Raised x) as (A & B)
      by (destruct r; cbn [read] in H; try discriminate H; injection H as <- _; split; [reflexivity|intros; discriminate]).
    destruct (run_log fuel s s2 r E B) as (ext & E1 & G). rewrite A, L in E1. symmetry in E1.
    apply split_at in E1 as [(d1 & X & _)|(c1 & -> & X)].
    - rewrite X, app_length in N. cbn [length] in N. lia.
    - rewrite <- app_assoc. exact (G _ _ _ X R).
  Qed.
End Raise.

(** Exceptions of tasks and of callbacks for timeouts. *)
From Verif.Base Require Import Prelude.
From Verif.Model Require Import Types Codec MsgId Frames TransferManager Sched Node.
From Verif.Spec Require Import NodeSpec CallSpec RegistrySpec.
From Verif.Proofs Require Import ManagerFacts SchedFacts NodeFacts RequestFacts NodeRequests NodeDispatch NodeCall RegistryFacts.
Local Open Scope Z_scope.

Definition quiet_from (s s' : node) : Prop :=
  exists l, n_log s' = n_log s ++ l /\ forall o, In o l -> is_user_call o = false.
Lemma quiet_refl s : quiet_from s s.
Proof. exists []. rewrite app_nil_r. split; [reflexivity|]. intros o []. Qed.
Lemma quiet_trans a b c : quiet_from a b -> quiet_from b c -> quiet_from a c.
Proof.
  intros (l & E & H) (l' & E' & H'). exists (l ++ l'). rewrite E', E, app_assoc. split; [reflexivity|].
  intros o Ho. apply in_app_or in Ho as [Ho|Ho]; auto.
Qed.
Lemma quiet_log s s' : n_log s' = n_log s -> quiet_from s s'.
Proof. intros E. exists []. rewrite app_nil_r. split; [exact E|]. intros o []. Qed.

Section Errors.
  Variable clk : nat -> Z.
  Variable beh : list nobs -> list (nop * bool) * outcome.
  Variable drv : list nobs -> list frame -> option exn.
  Variable status : list nobs -> value.
  Variable status_dt : datatype.
  Variable second : Z.

  Notation apply_nop := (apply_nop clk drv second).
  Notation apply_nops := (apply_nops clk drv second).
  Notation react := (react clk beh drv second).
  Notation nexec := (nexec clk beh drv status status_dt second).
  Notation npoll := (npoll clk beh drv status status_dt second).

  Ltac one_more := (eexists; split; [cbn; rewrite <- ?app_assoc; reflexivity|cbn; intros o Ho; intuition subst; reflexivity]).

  Lemma quiet_nop s op : quiet_from s (fst (apply_nop s op)).
  Proof.
    destruct op; cbn [Node.apply_nop].
    - unfold request. destruct (anonymous s); [apply quiet_refl|]. cbn [next_transfer_id].
      destruct (send _ _ _ _ _ _ _ _) as [s' r] eqn:E. apply send_shape in E.
      destruct E as (fs & err & -> & _ & Hr). destruct r as [t|x0]; [|one_more].
      destruct (message_id (tx_header t)) as [id|x0]; one_more.
    - unfold broadcast. destruct (anonymous s); [apply quiet_refl|]. cbn [next_transfer_id].
      destruct (send _ _ _ _ _ _ _ _) as [s' r] eqn:E. apply send_shape in E.
      destruct E as (fs & err & -> & _ & Hr). destruct r; one_more.
    - unfold respond. destruct (anonymous s); [apply quiet_refl|].
      destruct (send _ _ _ _ _ _ _ _) as [s' r] eqn:E. apply send_shape in E.
      destruct E as (fs & err & -> & _ & Hr). destruct r; one_more.
    - apply quiet_log. reflexivity.
    - apply quiet_log. reflexivity.
    - destruct (dget Nat.eqb (n_holders s) h) as [ev|]; [|apply quiet_refl]. destruct (cancel ev (n_queue s)); apply quiet_log; reflexivity.
    - apply quiet_log. reflexivity.
    - destruct (remove_entry _ _); apply quiet_log; reflexivity.
    - apply quiet_log. reflexivity.
    - unfold set_node_id. destruct (anonymous s); [|apply quiet_refl]. destruct (_ && _); [one_more|apply quiet_refl].
    - apply quiet_log. reflexivity.
  Qed.

  Lemma quiet_react s : quiet_from s (fst (react s)).
  Proof.
    apply (react_ind clk beh drv second (quiet_from s)); [|apply quiet_refl].
    intros s' op H. eapply quiet_trans; [exact H|apply quiet_nop].
  Qed.
  Lemma react_raises s : snd (beh (n_log s)) = Raises -> exists x, snd (react s) = Err x.
  Proof.
    unfold Node.react. destruct (beh (n_log s)) as [ops out]. cbn [snd]. intros ->.
    destruct (apply_nops s ops) as [s1 [x|]]; cbn [snd]; eauto.
  Qed.

  (** What an event does to the log: at most one call, and first. *)
  Lemma exec_log e now s :
    quiet_from s (fst (nexec e now s)) \/
    exists o l, n_log (fst (nexec e now s)) = n_log s ++ o :: l /\ is_user_call o = true /\ call_for e o /\
      (forall o', In o' l -> is_user_call o' = false) /\
      (snd (beh (n_log s ++ [o])) = Raises -> exists x, snd (nexec e now s) = Some x).
  Proof.
    unfold Node.nexec, call_for. destruct (ev_act e) as [p|h|h p|r k].
    - left. destruct (anonymous _).
      + apply quiet_log. reflexivity.
      + match goal with |- context [broadcast drv ?s1 ?d ?v ?p ?c] =>
          eapply quiet_trans; [|exact (quiet_nop s1 (NBroadcast d v p c))] end.
        apply quiet_log. reflexivity.
    - right. exists (OTask h now). pose proof (quiet_react (see s (OTask h now))) as (l & E & Hl).
      pose proof (react_raises (see s (OTask h now))) as R. destruct (react (see s (OTask h now))) as [s1 r].
      exists l. cbn [fst snd] in *. rewrite E. cbn. rewrite <- app_assoc. split; [reflexivity|]. split; [reflexivity|]. split; [reflexivity|].
      split; [exact Hl|]. intros Hr. destruct (R Hr) as (x & ->). exists x. reflexivity.
    - right. exists (OTask h now).
      match goal with |- context [react ?s0] => pose proof (quiet_react s0) as (l & E & Hl);
        pose proof (react_raises s0) as R; destruct (react s0) as [s1 r] end.
      exists l. cbn [fst snd] in *. rewrite E. cbn. rewrite <- app_assoc. split; [reflexivity|]. split; [reflexivity|]. split; [reflexivity|].
      split; [exact Hl|]. intros Hr. destruct (R Hr) as (x & ->). exists x. reflexivity.
    - right. exists (OTimeout r now).
      match goal with |- context [react ?s0] => pose proof (quiet_react s0) as (l & E & Hl);
        pose proof (react_raises s0) as R; destruct (react s0) as [s1 r1] end.
      exists l. cbn [fst snd] in *. rewrite E. cbn. rewrite <- app_assoc. split; [reflexivity|]. split; [reflexivity|]. split; [reflexivity|].
      split; [exact Hl|]. intros Hr. destruct (R Hr) as (x & ->). exists x. reflexivity.
  Qed.

  (** A call that raises is the last of the poll. *)
  Definition ends (s : node) (L : list nobs) (failed : Prop) : Prop :=
    forall l1 o l2, L = l1 ++ o :: l2 -> is_user_call o = true -> snd (beh (n_log s ++ l1 ++ [o])) = Raises ->
      (forall o', In o' l2 -> is_user_call o' = false) /\ failed.

  Lemma run_ends fuel : forall s s' r, run n_queue npop (nread clk) nexec fuel s = (s', r) ->
    exists L, n_log s' = n_log s ++ L /\ ends s L (exists x, r = Raised x).
  Proof.
    assert (N : forall s P, ends s [] P) by (intros s P [|? ?] o l2 E; discriminate E).
    induction fuel as [|fuel IH]; cbn [run]; intros s s' r H.
    { injection H as <- <-. exists []. rewrite app_nil_r. auto. }
    destruct (n_queue s) as [|e q] eqn:Eq.
    { injection H as <- <-. exists []. rewrite app_nil_r. auto. }
    cbn [nread] in H. set (s1 := set_reads s _) in *. destruct (clk (n_reads s) <? ev_time e).
    { injection H as <- <-. exists []. rewrite app_nil_r. auto. }
    pose proof (exec_log e (clk (n_reads s)) (npop s1)) as X.
    change (n_log (npop s1)) with (n_log s) in X.
    assert (Q : forall s2, quiet_from (npop s1) s2 -> exists l, n_log s2 = n_log s ++ l /\ forall o, In o l -> is_user_call o = false)
      by (intros s2 HQ; exact HQ).
    destruct (nexec e (clk (n_reads s)) (npop s1)) as [s2 [x|]] eqn:Ex; cbn [fst snd] in X.
    - injection H as <- <-. destruct X as [X|(o0 & l0 & E0 & C0 & _ & Q0 & R0)].
      + apply Q in X as (l & E & Hl). exists l. split; [exact E|]. intros l1 o l2 -> Ho.
        rewrite (Hl o) in Ho by (apply in_or_app; right; left; reflexivity). discriminate.
      + exists (o0 :: l0). split; [exact E0|]. intros [|a l1] o l2 El Ho _.
        * injection El as <- <-. split; [exact Q0|eauto].
        * injection El as <- ->. rewrite (Q0 o) in Ho by (apply in_or_app; right; left; reflexivity). discriminate.
    - destruct (IH s2 s' r H) as (L & EL & HL). destruct X as [X|(o0 & l0 & E0 & C0 & _ & Q0 & R0)].
      + apply Q in X as (l & E & Hl). exists (l ++ L). split; [rewrite EL, E, app_assoc; reflexivity|].
        intros l1 o l2 El Ho Hr. symmetry in El. apply app_eq_app in El as (m & [(E1 & E2)|(E1 & E2)]).
        * subst l1. apply (HL m o l2 E2 Ho). rewrite E, <- app_assoc. rewrite <- app_assoc in Hr. exact Hr.
        * destruct m as [|a m].
          -- rewrite app_nil_r in E1. subst l1. cbn in E2. apply (HL [] o l2); [symmetry; exact E2|exact Ho|].
             rewrite E. cbn [app]. rewrite <- app_assoc. exact Hr.
          -- injection E2 as <- ->. rewrite (Hl o) in Ho by (rewrite E1; apply in_or_app; right; left; reflexivity). discriminate.
      + exists ((o0 :: l0) ++ L). split; [rewrite EL, E0, <- app_assoc; reflexivity|].
        intros l1 o l2 El Ho Hr. symmetry in El. apply app_eq_app in El as (m & [(E1 & E2)|(E1 & E2)]).
        * subst l1. apply (HL m o l2 E2 Ho). rewrite E0, <- app_assoc. rewrite <- app_assoc in Hr. exact Hr.
        * destruct m as [|a m].
          -- rewrite app_nil_r in E1. subst l1. cbn in E2. apply (HL [] o l2); [symmetry; exact E2|exact Ho|].
             rewrite E0. cbn [app] in Hr |- *. rewrite <- app_assoc. exact Hr.
          -- injection E2 as <- ->. destruct l1 as [|b l1].
             ++ injection E1 as <- ->. destruct (R0 Hr) as (x & Hx). discriminate.
             ++ injection E1 as <- ->. rewrite (Q0 o) in Ho by (apply in_or_app; right; left; reflexivity). discriminate.
  Qed.

  Lemma poll_ends fuel s : exists L, n_log (fst (npoll fuel s)) = n_log s ++ L /\
    ends s L (exists x, snd (npoll fuel s) = Err x).
  Proof.
    unfold Node.npoll. destruct (run n_queue npop (nread clk) nexec fuel s) as [s' r] eqn:E.
    destruct (run_ends fuel s s' r E) as (L & EL & H). exists L.
    destruct r as [t| |x|]; cbn [fst snd nread]; (split; [exact EL|]); intros l1 o l2 El Ho Hr;
      destruct (H l1 o l2 El Ho Hr) as [H1 (x' & H2)]; try discriminate; eauto.
  Qed.

  (** ** What was not called stays *)

  Definition keeps_task (op : nop) : Prop := match op with NRemoveTask _ => False | _ => True end.
  Lemma push_keeps (e e' : event nact) q : In e q -> In e (heappush e' q).
  Proof. intros Hi. apply push_In. right. exact Hi. Qed.
  Lemma queue_nop s op e : keeps_task op -> In e (n_queue s) -> In e (n_queue (fst (apply_nop s op))).
  Proof.
    intros Hop Hi. destruct op; cbn [Node.apply_nop].
    - unfold request. destruct (anonymous s); [exact Hi|]. cbn [next_transfer_id].
      destruct (send _ _ _ _ _ _ _ _) as [s' r] eqn:E. apply send_shape in E.
      destruct E as (fs & err & -> & _ & Hr). destruct r as [t|x0]; [|exact Hi].
      destruct (message_id (tx_header t)) as [id|x0]; [|exact Hi]. cbn. apply push_keeps. exact Hi.
    - unfold broadcast. destruct (anonymous s); [exact Hi|]. cbn [next_transfer_id].
      destruct (send _ _ _ _ _ _ _ _) as [s' r] eqn:E. apply send_shape in E.
      destruct E as (fs & err & -> & _ & Hr). destruct r; exact Hi.
    - unfold respond. destruct (anonymous s); [exact Hi|].
      destruct (send _ _ _ _ _ _ _ _) as [s' r] eqn:E. apply send_shape in E.
      destruct E as (fs & err & -> & _ & Hr). destruct r; exact Hi.
    - cbn. apply push_keeps. exact Hi.
    - cbn. apply push_keeps. exact Hi.
    - destruct Hop.
    - exact Hi.
    - destruct (remove_entry _ _); exact Hi.
    - exact Hi.
    - unfold set_node_id. destruct (anonymous s); [|exact Hi]. destruct (_ && _); exact Hi.
    - exact Hi.
  Qed.
  Lemma queue_react s e : removes_no_task beh -> In e (n_queue s) -> In e (n_queue (fst (react s))).
  Proof.
    intros Hb. apply (react_ind_if clk beh drv second keeps_task (fun s => In e (n_queue s))); [|exact Hb].
    intros s' op Hop Hi. exact (queue_nop s' op e Hop Hi).
  Qed.
  Lemma queue_exec a e now s : removes_no_task beh -> In e (n_queue s) -> In e (n_queue (fst (nexec a now s))).
  Proof.
    intros Hb Hi. unfold Node.nexec. destruct (ev_act a) as [p|h|h p|r k].
    - assert (H1 : In e (n_queue (nenter s (ev_time a + p) 0 (AStatus p)))) by (cbn; apply push_keeps; exact Hi).
      destruct (anonymous _); [exact H1|]. exact (queue_nop _ (NBroadcast _ _ _ _) e I H1).
    - pose proof (queue_react (see s (OTask h now)) e Hb Hi) as H. destruct (react _) as [s1 r]. exact H.
    - match goal with |- context [react ?s0] => assert (H1 : In e (n_queue s0)) by (cbn; apply push_keeps; exact Hi);
        pose proof (queue_react s0 e Hb H1) as H; destruct (react s0) as [s1 r] end. exact H.
    - match goal with |- context [react ?s0] =>
        pose proof (queue_react s0 e Hb Hi) as H; destruct (react s0) as [s1 r1] end. exact H.
  Qed.

  Lemma run_keeps fuel e : removes_no_task beh -> forall s s' r, run n_queue npop (nread clk) nexec fuel s = (s', r) ->
    In e (n_queue s) -> (forall p, ev_act e <> AStatus p) ->
    In e (n_queue s') \/ exists l1 o l2, n_log s' = n_log s ++ l1 ++ o :: l2 /\ call_for e o.
  Proof.
    intros Hb. induction fuel as [|fuel IH]; cbn [run]; intros s s' r H Hi Hs.
    { injection H as <- <-. auto. }
    destruct (n_queue s) as [|a q] eqn:Eq; [destruct Hi|].
    cbn [nread] in H. set (s1 := set_reads s _) in *. destruct (clk (n_reads s) <? ev_time a).
    { injection H as <- <-. left. change (n_queue s1) with (n_queue s). rewrite Eq. exact Hi. }
    assert (Grow : forall s2 r2 sx rx, nexec a (clk (n_reads s)) (npop s1) = (s2, r2) ->
      run n_queue npop (nread clk) nexec fuel s2 = (sx, rx) -> exists l, n_log sx = n_log s2 ++ l).
    { intros s2 r2 sx rx _ Hr. destruct (run_ends fuel s2 sx rx Hr) as (L & EL & _). eauto. }
    pose proof (exec_log a (clk (n_reads s)) (npop s1)) as X. change (n_log (npop s1)) with (n_log s) in X.
    pose proof (queue_exec a e (clk (n_reads s)) (npop s1) Hb) as K.
    assert (Eq1 : n_queue (npop s1) = q) by (cbn; rewrite Eq; reflexivity). rewrite Eq1 in K.
    destruct Hi as [->|Hi].
    - destruct X as [X|(o & l & E & _ & Hc & _)].
      + exfalso. destruct X as (l & E & Hl). unfold Node.nexec in E. destruct (ev_act e) as [p|h|h p|r1 k] eqn:Ea.
        * exact (Hs p eq_refl).
        * destruct (quiet_react (see (npop s1) (OTask h (clk (n_reads s))))) as (l' & E' & _).
          destruct (react _) as [s2 r2]. cbn [fst] in E, E'. rewrite E' in E. cbn in E. rewrite <- app_assoc in E.
          apply app_inv_head in E. subst l. discriminate (Hl _ (or_introl eq_refl)).
        * match goal with H : context [react ?s0] |- _ => destruct (quiet_react s0) as (l' & E' & _); destruct (react s0) as [s2 r2] end.
          cbn [fst] in E, E'. rewrite E' in E. cbn in E. rewrite <- app_assoc in E.
          apply app_inv_head in E. subst l. discriminate (Hl _ (or_introl eq_refl)).
        * match goal with H : context [react ?s0] |- _ => destruct (quiet_react s0) as (l' & E' & _); destruct (react s0) as [s2 r2] end.
          cbn [fst] in E, E'. rewrite E' in E. cbn in E. rewrite <- app_assoc in E.
          apply app_inv_head in E. subst l. discriminate (Hl _ (or_introl eq_refl)).
      + right. destruct (nexec e (clk (n_reads s)) (npop s1)) as [s2 [x|]] eqn:Ex; cbn [fst snd] in *.
        * injection H as <- <-. exists [], o, l. split; [exact E|exact Hc].
        * destruct (Grow s2 None s' r eq_refl H) as (l' & E'). exists [], o, (l ++ l'). split; [|exact Hc].
          rewrite E', E. cbn [app]. rewrite <- app_assoc. reflexivity.
    - specialize (K Hi). destruct (nexec a (clk (n_reads s)) (npop s1)) as [s2 [x|]] eqn:Ex; cbn [fst snd] in *.
      + injection H as <- <-. left. exact K.
      + destruct (IH s2 s' r H K Hs) as [G|(l1 & o & l2 & E & Hc)]; [left; exact G|]. right.
        assert (exists l, n_log s2 = n_log s ++ l) as (l & El).
        { destruct X as [(l & E1 & _)|(o1 & l & E1 & _)]; [exists l; exact E1|exists (o1 :: l); exact E1]. }
        exists (l ++ l1), o, l2. split; [|exact Hc]. rewrite E, El, <- !app_assoc. reflexivity.
  Qed.

  Lemma poll_keeps fuel s e : removes_no_task beh -> In e (n_queue s) -> (forall p, ev_act e <> AStatus p) ->
    In e (n_queue (fst (npoll fuel s))) \/ exists l1 o l2, n_log (fst (npoll fuel s)) = n_log s ++ l1 ++ o :: l2 /\ call_for e o.
  Proof.
    intros Hb Hi Hs. unfold Node.npoll. destruct (run n_queue npop (nread clk) nexec fuel s) as [s' r] eqn:E.
    pose proof (run_keeps fuel e Hb s s' r E Hi Hs) as H.
    destruct r as [t| |x|]; exact H.
  Qed.
End Errors.

Lemma raise_ends A ins l1 o l2 :
  n_log (ran A (ins ++ [IPoll])) = n_log (ran A ins) ++ l1 ++ o :: l2 -> is_user_call o = true ->
  snd (st_beh A (n_log (ran A ins) ++ l1 ++ [o])) = Raises ->
  (forall o', In o' l2 -> is_user_call o' = false) /\
  exists x, snd (npoll (st_clk A) (st_beh A) (st_drv A) (st_status A) (st_status_dt A) (st_second A) (st_fuel A) (ran A ins)) = Err x.
Proof.
  rewrite ran_snoc. cbn [apply_input]. intros E Ho Hr.
  destruct (poll_ends (st_clk A) (st_beh A) (st_drv A) (st_status A) (st_status_dt A) (st_second A) (st_fuel A) (ran A ins)) as (L & EL & H).
  rewrite E in EL. apply app_inv_head in EL. subst L. exact (H l1 o l2 eq_refl Ho Hr).
Qed.
Lemma raise_keeps A ins e : removes_no_task (st_beh A) -> In e (n_queue (ran A ins)) -> (forall p, ev_act e <> AStatus p) ->
  In e (n_queue (ran A (ins ++ [IPoll]))) \/
  exists l1 o l2, n_log (ran A (ins ++ [IPoll])) = n_log (ran A ins) ++ l1 ++ o :: l2 /\ call_for e o.
Proof. rewrite ran_snoc. cbn [apply_input]. intros. apply poll_keeps; assumption. Qed.

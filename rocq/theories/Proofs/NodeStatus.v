(** The periodic status broadcast of a node in every execution. *)
From Verif.Base Require Import Prelude Bits.
From Verif.Model Require Import Types Codec MsgId Frames TransferManager Sched Node.
From Verif.Spec Require Import NodeSpec SchedSpec StatusSpec.
From Verif.Proofs Require Import ManagerFacts SchedFacts NodeFacts RequestFacts NodeRequests NodeTop.
Require Import Coq.Sorting.Sorted.
Local Open Scope Z_scope.

Definition is_status (e : event nact) : bool := match ev_act e with AStatus _ => true | _ => false end.

Lemma status_push_other e q : is_status e = false -> filter is_status (heappush e q) = filter is_status q.
Proof.
  intros E. induction q as [|x q IH]; cbn; [now rewrite E|]. destruct (ev_ltb e x); cbn; rewrite ?E, ?IH; reflexivity.
Qed.
Lemma status_push e q : is_status e = true -> filter is_status q = [] -> filter is_status (heappush e q) = [e].
Proof.
  intros E. induction q as [|x q IH]; cbn; intros F; [now rewrite E|]. destruct (is_status x) eqn:X; [discriminate|].
  destruct (ev_ltb e x); cbn; rewrite ?E, X; [rewrite F; reflexivity|apply IH, F].
Qed.

Section Status.
  Variable clk : nat -> Z.
  Variable beh : list nobs -> list (nop * bool) * outcome.
  Variable drv : list nobs -> list frame -> option exn.
  Variable status : list nobs -> value.
  Variable status_dt : datatype.
  Variable types : datatypes.
  Variable second : Z.
  Variable own : N.
  Hypothesis own_set : own <> 0%N.
  Variable interval : Z.
  Variable strict : bool.

  Notation announced := (announced status_dt).
  Definition okop (op : nop) : Prop := strict = true -> leaves_status status_dt op.
  Hypothesis okbeh : forall l op c, In (op, c) (fst (beh l)) -> okop op.

  Notation apply_nop := (apply_nop clk drv second).
  Notation apply_nops := (apply_nops clk drv second).
  Notation react := (react clk beh drv second).
  Notation call_handler := (call_handler clk beh drv second).
  Notation call_handlers := (call_handlers clk beh drv second).
  Notation recv_transfer := (recv_transfer clk beh drv second).
  Notation nexec := (nexec clk beh drv status status_dt second).
  Notation npoll := (npoll clk beh drv status status_dt second).
  Notation node_history := (node_history clk beh drv status status_dt types second).
  Notation request := (request clk drv second).
  Notation broadcast := (broadcast drv).
  Notation respond := (respond drv).

  (** [k] runs so far. *)
  Definition runs_so_far (k : nat) (l : list nobs) : Prop :=
    (k <= length (announced l))%nat /\ (strict = true -> k = length (announced l)).
  Definition S0 (k : nat) (s : node) : Prop :=
    n_id s = Some own /\ runs_so_far k (n_log s) /\
    (exists i, (i < n_reads s)%nat /\ clk 0%nat + Z.of_nat k * interval <= clk i).
  Definition S1 (s : node) : Prop := GS s /\ exists k, S0 k s /\
    exists sq, filter is_status (n_queue s) = [Event (clk 0%nat + (Z.of_nat k + 1) * interval) 0 sq (AStatus interval)].

  Lemma announced_app a b : announced (a ++ b) = announced a ++ announced b.
  Proof. apply attempted_app. Qed.

  Lemma S0_mono k s s' : n_id s' = n_id s -> (n_reads s <= n_reads s')%nat -> runs_so_far k (n_log s') -> S0 k s -> S0 k s'.
  Proof.
    intros E1 E2 E3 (A & _ & i & B & C). split; [congruence|]. split; [exact E3|]. exists i. split; [lia|exact C].
  Qed.
  Lemma more_runs k l o : runs_so_far k l -> (strict = true -> announced [o] = []) -> runs_so_far k (l ++ [o]).
  Proof.
    intros (A & B) C. unfold runs_so_far. rewrite announced_app, app_length. split; [lia|]. intros St. rewrite (C St), (B St).
    cbn. lia.
  Qed.
  Lemma S0_see k s o : S0 k s -> (strict = true -> announced [o] = []) -> S0 k (see s o).
  Proof. intros H C. eapply S0_mono; [| | |exact H]; try reflexivity. apply more_runs; [apply H|exact C]. Qed.

  (** [S1] without the shape of the queue, and with a queue whose status
      events are the same. *)
  Lemma S1_move s s' : S1 s -> GS s' -> n_id s' = n_id s -> (n_reads s <= n_reads s')%nat ->
    (forall k, runs_so_far k (n_log s) -> runs_so_far k (n_log s')) ->
    filter is_status (n_queue s') = filter is_status (n_queue s) -> S1 s'.
  Proof.
    intros (_ & k & H & sq & F) G E1 E2 E3 E4. split; [exact G|]. exists k. split.
    - eapply S0_mono; [exact E1|exact E2|apply E3, H|exact H].
    - exists sq. rewrite E4. exact F.
  Qed.

  Lemma send_runs s session h tid dt v canfd k : runs_so_far k (n_log s) ->
    (strict = true -> session <> Some (dt_id status_dt, None)) -> runs_so_far k (n_log (fst (send drv s session h tid dt v canfd))).
  Proof.
    intros R N. destruct (send drv s session h tid dt v canfd) as [s' r] eqn:E. apply send_shape in E.
    destruct E as (fs & err & -> & _). cbn [fst see n_log]. apply more_runs; [exact R|]. intros St. unfold announced, attempted.
    destruct session as [k'|]; [|reflexivity]. destruct (key_eqb k' (dt_id status_dt, None)) eqn:K; [|reflexivity].
    apply key_eqb_spec in K. subst k'. now specialize (N St).
  Qed.
  Lemma send_same s session h tid dt v canfd :
    let s' := fst (send drv s session h tid dt v canfd) in n_id s' = n_id s /\ n_queue s' = n_queue s /\ n_reads s' = n_reads s.
  Proof.
    destruct (send drv s session h tid dt v canfd) as [s' r] eqn:E. apply send_shape in E.
    destruct E as (fs & err & -> & _). auto.
  Qed.

  Lemma S1_request s dt v dest prio timeout canfd : S1 s -> S1 (fst (request s dt v dest prio timeout canfd)).
  Proof.
    intros H. pose proof (GS_request clk drv second s dt v dest prio timeout canfd (proj1 H)) as G. revert G.
    unfold Node.request. destruct (anonymous s); [intros; exact H|]. unfold next_transfer_id.
    set (tid := match dget key_eqb (n_next s) (dt_id dt, Some dest) with Some t => t | None => 0%N end).
    set (s1 := set_next s _). set (h := Header _ _ _ _ _ _ _).
    pose proof (fun k R => send_runs s1 (Some (dt_id dt, Some dest)) h tid dt v canfd k R) as R.
    destruct (send_same s1 (Some (dt_id dt, Some dest)) h tid dt v canfd) as (E1 & E2 & E3).
    destruct (send drv s1 (Some (dt_id dt, Some dest)) h tid dt v canfd) as [s2 [t|x]]; cbn [fst] in *.
    - destruct (message_id (tx_header t)) as [id|x]; cbn [nread fst]; intros G.
      + apply (S1_move s); [exact H|exact G| | | |]; cbn [set_reqs set_pending nenter set_queue see set_reads n_id n_reads n_log n_queue].
        * exact E1.
        * rewrite E3. cbn. lia.
        * intros k Rk. apply more_runs; [|reflexivity]. apply R; [exact Rk|discriminate].
        * rewrite status_push_other by reflexivity. rewrite E2. reflexivity.
      + apply (S1_move s); auto; [rewrite E3; cbn; lia| |rewrite E2; reflexivity]. intros k Rk. apply R; [exact Rk|discriminate].
    - intros G. apply (S1_move s); auto; [rewrite E3; cbn; lia| |rewrite E2; reflexivity]. intros k Rk. apply R; [exact Rk|discriminate].
  Qed.
  Lemma S1_broadcast s dt v prio canfd : (strict = true -> dt_id dt <> dt_id status_dt) -> S1 s -> S1 (fst (broadcast s dt v prio canfd)).
  Proof.
    intros N H. pose proof (GS_broadcast drv s dt v prio canfd (proj1 H)) as G. revert G.
    unfold Node.broadcast. destruct (anonymous s); [intros; exact H|]. unfold next_transfer_id.
    set (tid := match dget key_eqb (n_next s) (dt_id dt, None) with Some t => t | None => 0%N end).
    set (s1 := set_next s _). set (h := Header _ _ _ _ _ _ _).
    pose proof (fun k R => send_runs s1 (Some (dt_id dt, None)) h tid dt v canfd k R) as R.
    destruct (send_same s1 (Some (dt_id dt, None)) h tid dt v canfd) as (E1 & E2 & E3).
    assert (X : forall k, runs_so_far k (n_log s) -> runs_so_far k (n_log (fst (send drv s1 (Some (dt_id dt, None)) h tid dt v canfd)))).
    { intros k Rk. apply R; [exact Rk|]. intros St K. injection K. exact (N St). }
    destruct (send drv s1 (Some (dt_id dt, None)) h tid dt v canfd) as [s2 [t|x]]; cbn [fst] in *; intros G;
      (apply (S1_move s); auto; [rewrite E3; cbn; lia|rewrite E2; reflexivity]).
  Qed.
  Lemma S1_respond s dt v dest tid prio canfd : S1 s -> S1 (fst (respond s dt v dest tid prio canfd)).
  Proof.
    intros H. pose proof (GS_respond drv s dt v dest tid prio canfd (proj1 H)) as G. revert G.
    unfold Node.respond. destruct (anonymous s); [intros; exact H|]. set (h := Header _ _ _ _ _ _ _).
    pose proof (fun k R => send_runs s (@None key) h tid dt v canfd k R) as R.
    destruct (send_same s (@None key) h tid dt v canfd) as (E1 & E2 & E3).
    destruct (send drv s (@None key) h tid dt v canfd) as [s2 [t|x]]; cbn [fst] in *; intros G;
      (apply (S1_move s); auto; [rewrite E3; cbn; lia| |rewrite E2; reflexivity]); (intros k Rk; apply R; [exact Rk|discriminate]).
  Qed.

  Lemma cancel_status ev q q' : cancel ev q = Some q' -> (forall e, In e q -> ev_seq e = ev -> is_status e = false) ->
    filter is_status q' = filter is_status q.
  Proof.
    intros C N. destruct (cancel_sub _ _ _ C) as (a & x & b & -> & -> & Ex). rewrite !filter_app. cbn.
    rewrite (N x); [reflexivity| |exact Ex]. apply in_or_app. right. now left.
  Qed.

  Lemma S1_nop s op : okop op -> S1 s -> S1 (fst (apply_nop s op)).
  Proof.
    intros O H. pose proof (GS_nop clk drv second s op (proj1 H)) as G. revert G.
    destruct op; cbn [Node.apply_nop]; intros G.
    - now apply S1_request.
    - apply S1_broadcast; [|exact H]. exact O.
    - now apply S1_respond.
    - apply (S1_move s); [exact H|exact G|..]; cbn; auto. now rewrite status_push_other.
    - apply (S1_move s); [exact H|exact G|..]; cbn; auto. now rewrite status_push_other.
    - destruct (dget Nat.eqb (n_holders s) h) as [ev|] eqn:Eh; [|exact H].
      destruct (cancel ev (n_queue s)) as [q|] eqn:Ec; [|exact H].
      apply (S1_move s); [exact H|exact G|..]; cbn; auto.
      apply (cancel_status ev); [exact Ec|]. intros e He Es.
      pose proof (proj2 (g_hold _ _ _ _ _ _ _ (proj1 H) h ev Eh) e He Es) as U. unfold is_status. destruct (ev_act e); [destruct U|..]; reflexivity.
    - apply (S1_move s); [exact H|exact G|..]; cbn; auto.
    - destruct (remove_entry i (handler_list s (n_cur s))); [|exact H]. apply (S1_move s); [exact H|exact G|..]; cbn; auto.
    - apply (S1_move s); [exact H|exact G|..]; cbn; auto.
    - unfold set_node_id in *. assert (A : anonymous s = false).
      { destruct H as (_ & k & (E & _) & _). unfold anonymous. rewrite E. apply N.eqb_neq, own_set. }
      rewrite A in *. exact H.
    - apply (S1_move s); [exact H|exact G|..]; cbn; auto.
  Qed.
  Lemma S1_nops ops : Forall (fun oc => okop (fst oc)) ops -> forall s, S1 s -> S1 (fst (apply_nops s ops)).
  Proof.
    induction ops as [|[op c] ops IH]; intros F s Hs; [exact Hs|]. apply Forall_cons_iff in F as (F1 & F2). cbn [Node.apply_nops].
    pose proof (S1_nop s op F1 Hs) as P. destruct (apply_nop s op) as [s1 [x|]]; cbn [fst] in *; [destruct c; auto|auto].
  Qed.
  Lemma S1_react s : S1 s -> S1 (fst (react s)).
  Proof.
    intros Hs. unfold Node.react. destruct (beh (n_log s)) as [ops out] eqn:E.
    assert (F : Forall (fun oc => okop (fst oc)) ops).
    { apply Forall_forall. intros [op c] Hi. apply (okbeh (n_log s) op c). rewrite E. exact Hi. }
    pose proof (S1_nops ops F s Hs) as P. destruct (apply_nops s ops) as [s1 [x|]]; exact P.
  Qed.
  Lemma S1_see s o : neutral o -> announced [o] = [] -> S1 s -> S1 (see s o).
  Proof.
    intros Ne An H. apply (S1_move s); auto; [apply GS_see; [exact Ne|apply H]|]. intros k R. apply more_runs; auto.
  Qed.
  Lemma S1_call s hd t : S1 s -> S1 (fst (call_handler s hd t)).
  Proof.
    intros H. unfold Node.call_handler. pose proof (S1_react (see s (OHandled hd t)) (S1_see s (OHandled hd t) I eq_refl H)) as P.
    destruct (react (see s (OHandled hd t))) as [s1 [r|x]]; cbn [fst] in *; [|exact P].
    destruct (match hd_type hd with Some (_, k) => k | None => false end && negb (hd_sniff hd)).
    - destruct (negb (h_request (rx_header t))); [exact P|]. destruct r as [[dt v]|]; [now apply S1_respond|exact P].
    - destruct r; exact P.
  Qed.
  Lemma S1_calls fuel : forall s o i t, S1 s -> S1 (fst (call_handlers fuel s o i t)).
  Proof.
    induction fuel as [|fuel IH]; intros s o i t H; [exact H|]. cbn [Node.call_handlers].
    destruct (nth_error (handler_list s o) i) as [hd|]; [|exact H]. destruct (accepts hd t); [|now apply IH].
    pose proof (S1_call s hd t H) as P. destruct (call_handler s hd t) as [s1 [x|]]; cbn [fst] in *; [destruct (n_catch s1)|]; auto.
  Qed.
  Lemma S1_recv fuel s t : S1 s -> S1 (fst (recv_transfer fuel s t)).
  Proof.
    intros H. pose proof (GS_recv clk beh drv second fuel s t (proj1 H)) as G. revert G. unfold Node.recv_transfer.
    destruct (h_service (rx_header t) && negb (h_request (rx_header t)) && optN_eqb (h_dest (rx_header t)) (n_id s)).
    - destruct (find_request t (n_requests s)) as [k|] eqn:Ef; [|intros; exact H].
      destruct (dget key_eqb (n_callbacks s) k) as [[r ev]|] eqn:Ec; [|intros; exact H].
      change (see match cancel ev (n_queue s) with Some q => set_queue s q (n_seq s) | None => s end (OResponse r t)) with (called s r ev t).
      assert (Hc : S1 (called s r ev t)).
      { apply (S1_move s); [exact H|eapply GS_called; eauto; apply H|..]; unfold called.
        - destruct (cancel ev (n_queue s)); reflexivity.
        - destruct (cancel ev (n_queue s)); cbn; lia.
        - intros k' R. destruct (cancel ev (n_queue s)); cbn; apply more_runs; auto.
        - destruct (cancel ev (n_queue s)) as [q|] eqn:E; [|reflexivity]. cbn.
          apply (cancel_status ev); [exact E|]. intros e He Es.
          destruct (g_ent _ _ _ _ _ _ _ (proj1 H) k r ev Ec) as (_ & _ & _ & _ & A & _).
          unfold is_status. rewrite (A e He Es). reflexivity. }
      pose proof (S1_react _ Hc) as P. destruct (react (called s r ev t)) as [s2 [y|x]]; cbn [fst] in *; [|intros; exact P].
      destruct (negb (dmem key_eqb (n_requests s2) k)); [intros; exact P|].
      destruct (negb (dmem key_eqb (n_callbacks s2) k)); cbn [fst]; intros G; (apply (S1_move s2); [exact P|exact G|..]; cbn; auto).
    - intros _. destruct (negb (h_service (rx_header t)) || sniffing s t || optN_eqb (h_dest (rx_header t)) (n_id s)); [|exact H].
      now apply S1_calls.
  Qed.

  Lemma S1_exec s e q : S1 s -> n_queue s = e :: q -> ev_time e <= clk (n_reads s) ->
    S1 (fst (nexec e (clk (n_reads s)) (npop (set_reads s (S (n_reads s)))))).
  Proof.
    intros H Eq Due. set (s0 := set_reads s (S (n_reads s))).
    assert (G : GS (fst (nexec e (clk (n_reads s)) (npop s0)))).
    { apply (GS_exec clk beh drv status status_dt second s0 e q); [exact (proj1 H)|exact Eq|exact Due]. }
    revert G. unfold Node.nexec. pose proof (proj1 H) as GSs. unfold GS in GSs. rewrite Eq in GSs.
    destruct (ev_act e) as [p|h|h p|r k] eqn:Ea; intros G.
    - destruct H as (_ & k & (Id & R & i & Hi & Hb) & sq & F). rewrite Eq in F. cbn [filter] in F.
      replace (is_status e) with true in F by (unfold is_status; rewrite Ea; reflexivity). injection F as Ee F.
      assert (Ep : p = interval) by (rewrite Ee in Ea; cbn in Ea; injection Ea as <-; reflexivity). subst p.
      assert (Et : ev_time e = clk 0%nat + (Z.of_nat k + 1) * interval) by (rewrite Ee; reflexivity).
      set (s1 := nenter (npop s0) (ev_time e + interval) 0 (AStatus interval)) in *.
      assert (A : anonymous s1 = false) by (unfold anonymous; cbn; rewrite Id; apply N.eqb_neq, own_set). rewrite A in *.
      split; [exact G|]. exists (S k). revert G. unfold Node.broadcast. rewrite A. unfold next_transfer_id.
      set (tid := match dget key_eqb (n_next s1) (dt_id status_dt, None) with Some t => t | None => 0%N end).
      set (s2 := set_next s1 _). set (hh := Header _ _ _ _ _ _ _). intros G.
      assert (Ls : exists fs err, fst (send drv s2 (Some (dt_id status_dt, None)) hh tid status_dt (status (n_log s1)) None) =
        see s2 (OSend (Some (dt_id status_dt, None)) (sent_header hh status_dt) tid fs err)).
      { destruct (send drv s2 (Some (dt_id status_dt, None)) hh tid status_dt (status (n_log s1)) None) as [s3 r] eqn:E.
        apply send_shape in E. destruct E as (fs & err & -> & _). exists fs, err. reflexivity. }
      destruct Ls as (fs & err & Ls).
      replace (fst (let '(s4, r) := send drv s2 (Some (dt_id status_dt, None)) hh tid status_dt (status (n_log s1)) None in
        match r with Ok _ => (s4, None) | Err x => (s4, Some x) end)) with
        (fst (send drv s2 (Some (dt_id status_dt, None)) hh tid status_dt (status (n_log s1)) None))
        by (destruct (send drv s2 (Some (dt_id status_dt, None)) hh tid status_dt (status (n_log s1)) None) as [s4 [t|x]]; reflexivity).
      rewrite Ls. split.
      + split; [exact Id|]. split.
        * cbn [see n_log]. unfold runs_so_far. rewrite announced_app, app_length.
          replace (announced [OSend (Some (dt_id status_dt, None)) (sent_header hh status_dt) tid fs err]) with [tid].
          2:{ unfold StatusSpec.announced. cbn [attempted]. rewrite (keq_refl _ key_eqb_spec). reflexivity. }
          change (n_log s2) with (n_log s). destruct R as (R1 & R2). cbn [length]. split; [lia|]. intros St. specialize (R2 St). lia.
        * exists (n_reads s). split; [cbn; lia|]. lia.
      + exists (n_seq s). cbn [see set_next n_queue s2 s1 nenter set_queue npop s0 set_reads n_seq]. rewrite Eq. cbn [tl].
        rewrite status_push; [|reflexivity|exact F]. f_equal. f_equal. rewrite Et. lia.
    - assert (P : S1 (see (npop s0) (OTask h (clk (n_reads s))))).
      { apply (S1_move s); [exact H|..].
        - unfold GS. cbn. rewrite Eq. cbn. apply G_neutral; [exact I|]. apply G_pop_user with (e := e); auto. rewrite Ea. exact I.
        - reflexivity.
        - cbn. lia.
        - intros k R. cbn. apply more_runs; auto.
        - cbn. rewrite Eq. cbn [tl filter]. replace (is_status e) with false by (unfold is_status; rewrite Ea; reflexivity). reflexivity. }
      apply S1_react in P. destruct (react (see (npop s0) (OTask h (clk (n_reads s))))). exact P.
    - match goal with |- S1 (fst (let '(_, _) := react ?x in _)) => assert (P : S1 x) end.
      { apply (S1_move s); [exact H|..].
        - unfold GS. cbn. rewrite Eq. cbn. apply G_neutral; [exact I|].
          eapply G_enter; [discriminate|apply (holds_new _ _ _ (AEvery h p)); exact I|].
          apply G_pop_user with (e := e); auto. rewrite Ea. exact I.
        - reflexivity.
        - cbn. lia.
        - intros k R. cbn. apply more_runs; auto.
        - cbn. rewrite Eq. cbn [tl]. rewrite status_push_other by reflexivity. cbn [tl filter]. replace (is_status e) with false by (unfold is_status; rewrite Ea; reflexivity). reflexivity. }
      apply S1_react in P. match goal with |- S1 (fst (let '(_, _) := ?x in _)) => destruct x end. exact P.
    - match goal with |- S1 (fst (let '(_, _) := react ?x in _)) => assert (P : S1 x) end.
      { apply (S1_move s); [exact H|..].
        - unfold GS. cbn. rewrite Eq. cbn. eapply G_timeout; eauto.
        - reflexivity.
        - cbn. lia.
        - intros k' R. cbn. apply more_runs; auto.
        - cbn. rewrite Eq. cbn [tl filter]. replace (is_status e) with false by (unfold is_status; rewrite Ea; reflexivity). reflexivity. }
      apply S1_react in P. match goal with |- S1 (fst (let '(_, _) := ?x in _)) => destruct x end. exact P.
  Qed.

  (** ** Runs of the scheduler *)
  Lemma S1_read s : S1 s -> S1 (set_reads s (S (n_reads s))).
  Proof. intros H. apply (S1_move s); [exact H|exact (proj1 H)|..]; cbn; auto. Qed.
  Lemma S1_run fuel : forall s, S1 s -> S1 (fst (run n_queue npop (nread clk) nexec fuel s)).
  Proof.
    induction fuel as [|fuel IH]; intros s H; [exact H|]. cbn [run]. destruct (n_queue s) as [|e q] eqn:Eq; [exact H|].
    unfold nread at 1. destruct (Z.ltb_spec (clk (n_reads s)) (ev_time e)); [exact (S1_read s H)|].
    pose proof (S1_exec s e q H Eq H0) as P.
    destruct (nexec e (clk (n_reads s)) (npop (set_reads s (S (n_reads s))))) as [s2 [x|]]; cbn [fst] in *; [exact P|apply IH, P].
  Qed.
  Lemma S1_poll fuel s : S1 s -> S1 (fst (npoll fuel s)).
  Proof.
    intros H. unfold Node.npoll. pose proof (S1_run fuel s H) as P.
    destruct (run n_queue npop (nread clk) nexec fuel s) as [s1 []]; cbn [fst] in *; auto; apply S1_read, P.
  Qed.
  Lemma S1_input fuel s i : (forall op, i = IOp op -> okop op) -> S1 s ->
    S1 (apply_input clk beh drv status status_dt types second fuel s i).
  Proof.
    intros O H. destruct i as [op|x f|t| |]; cbn [apply_input].
    - apply S1_nop; auto.
    - unfold recv_frame. destruct x; [|exact H]. cbn [negb nread]. pose proof (S1_read s H) as P. set (s1 := set_reads s _) in *.
      destruct (receive_frame (n_manager s1) f (clk (n_reads s))) as [m [[|f0 fs]|]]; cbn [fst].
      + apply (S1_move s1); [exact P|exact (proj1 P)|..]; auto.
      + assert (Q : S1 (set_manager s1 m)) by (apply (S1_move s1); [exact P|exact (proj1 P)|..]; auto).
        destruct (from_frames types (f0 :: fs)); [apply S1_recv, Q|exact Q].
      + apply (S1_move s1); [exact P|exact (proj1 P)|..]; auto.
    - apply S1_recv, H.
    - apply S1_poll, H.
    - apply S1_read, H.
  Qed.
  Lemma S1_history fuel ins : (forall op, In (IOp op) ins -> okop op) -> forall s, S1 s -> S1 (node_history fuel s ins).
  Proof.
    induction ins as [|i ins IH]; intros O s H; [exact H|].
    change (node_history fuel s (i :: ins)) with (node_history fuel (apply_input clk beh drv status status_dt types second fuel s i) ins).
    apply IH; [intros op Hi; apply O; now right|]. apply S1_input; [|exact H]. intros op ->. apply O. now left.
  Qed.
  Lemma S1_new canfd catch info : S1 (new_node clk (Some own) canfd catch interval info).
  Proof.
    split; [apply GS_new|]. exists 0%nat. split.
    - split; [reflexivity|]. split; [split; [cbn; lia|reflexivity]|]. exists 0%nat. cbn. lia.
    - exists 0%nat. cbn [new_node n_queue filter is_status ev_act]. f_equal. f_equal. lia.
  Qed.

  (** What is due has been run when a poll returns. *)
  Lemma run_remaining fuel : forall s s1 t, S1 s -> run n_queue npop (nread clk) nexec fuel s = (s1, Remaining t) ->
    S1 s1 /\ (0 < n_reads s1)%nat /\ exists k, S0 k s1 /\
      clk (pred (n_reads s1)) < clk 0%nat + (Z.of_nat k + 1) * interval.
  Proof.
    induction fuel as [|fuel IH]; intros s s1 t H; [discriminate|]. cbn [run]. destruct (n_queue s) as [|e q] eqn:Eq; [discriminate|].
    unfold nread at 1. destruct (Z.ltb_spec (clk (n_reads s)) (ev_time e)) as [L|L].
    - intros E. injection E as <- _. pose proof (S1_read s H) as P. split; [exact P|]. split; [cbn; lia|].
      destruct P as (G & k & P & sq & F). exists k. split; [exact P|]. cbn [set_reads n_reads pred].
      cbn [set_reads n_queue] in F.
      assert (I : In (Event (clk 0%nat + (Z.of_nat k + 1) * interval) 0 sq (AStatus interval)) (n_queue s)).
      { eapply (proj1 (filter_In is_status _ _)). rewrite F. now left. }
      pose proof (g_sorted _ _ _ _ _ _ _ G) as So. cbn [set_reads n_queue] in So. rewrite Eq in So, I. destruct I as [I|I].
      + rewrite I in L. exact L.
      + inversion So as [|? ? _ So2]; subst. rewrite Forall_forall in So2. specialize (So2 _ I). unfold ev_lt in So2.
        cbn in So2. lia.
    - pose proof (S1_exec s e q H Eq L) as P.
      destruct (nexec e (clk (n_reads s)) (npop (set_reads s (S (n_reads s))))) as [s2 [x|]]; cbn [fst] in *; [discriminate|]. apply IH, P.
  Qed.
End Status.

Section Top.
  Variable clk : nat -> Z.
  Variable beh : list nobs -> list (nop * bool) * outcome.
  Variable drv : list nobs -> list frame -> option exn.
  Variable status : list nobs -> value.
  Variable status_dt : datatype.
  Variable types : datatypes.
  Variable second : Z.
  Notation started := (started clk beh drv status status_dt types second).

  Lemma status_counts strict own interval canfd catch info fuel ins s' dl : own <> 0%N -> monotone clk ->
    (strict = true -> only_own_status status_dt beh ins) -> 0 < interval ->
    npoll clk beh drv status status_dt second fuel (started (Some own) canfd catch interval info fuel ins) = (s', Ok dl) ->
    let n := Z.of_nat (length (announced status_dt (n_log s'))) in
    (clk (n_reads s' - 2)%nat - clk 0%nat) / interval <= n /\
    (strict = true -> n = (clk (n_reads s' - 2)%nat - clk 0%nat) / interval).
  Proof.
    intros O M Only Pos E n.
    assert (H : S1 clk status_dt own interval strict (started (Some own) canfd catch interval info fuel ins)).
    { apply S1_history; [exact O| | |apply S1_new; exact O].
      - intros l op c Hi St. apply (proj1 (Only St) l op c Hi).
      - intros op Hi St. apply (proj2 (Only St) op Hi). }
    unfold npoll in E.
    destruct (run n_queue npop (nread clk) (nexec clk beh drv status status_dt second) fuel (started (Some own) canfd catch interval info fuel ins))
      as [s1 [t| | |]] eqn:R; cbn [nread] in E; try discriminate.
    injection E as E _. subst s'.
    destruct (run_remaining clk beh drv status status_dt second own O interval strict
      (fun l op c Hi St => proj1 (Only St) l op c Hi) fuel _ _ _ H R) as (_ & Rd & k & (Id & (R1 & R2) & i & Hi & Hb) & Hk).
    subst n. cbn [set_reads n_log n_reads]. replace (S (n_reads s1) - 2)%nat with (pred (n_reads s1)) by lia.
    assert (Hm : clk i <= clk (pred (n_reads s1))) by (apply M; lia).
    assert (D : (clk (pred (n_reads s1)) - clk 0%nat) / interval = Z.of_nat k).
    { symmetry. apply Z.div_unique with (r := clk (pred (n_reads s1)) - clk 0%nat - interval * Z.of_nat k); nia. }
    rewrite D. split; [lia|]. intros St. rewrite (R2 St). reflexivity.
  Qed.

  (** At any time: not more than there were intervals. *)
  Lemma status_not_early own interval canfd catch info fuel ins : own <> 0%N -> only_own_status status_dt beh ins ->
    let s := started (Some own) canfd catch interval info fuel ins in
    exists i, (i < n_reads s)%nat /\ clk 0%nat + Z.of_nat (length (announced status_dt (n_log s))) * interval <= clk i.
  Proof.
    intros O Only s.
    assert (H : S1 clk status_dt own interval true s).
    { apply S1_history; [exact O| | |apply S1_new; exact O].
      - intros l op c Hi St. apply (proj1 Only l op c Hi).
      - intros op Hi St. apply (proj2 Only op Hi). }
    destruct H as (_ & k & (_ & (_ & R) & i & Hi & Hb) & _). exists i. split; [exact Hi|]. rewrite <- (R eq_refl). exact Hb.
  Qed.
End Top.


(** The callbacks of requests in every execution of a node. *)
From Verif.Base Require Import Prelude Bits.
From Verif.Model Require Import Types Codec MsgId Frames TransferManager Sched Node.
From Verif.Spec Require Import NodeSpec.
From Verif.Proofs Require Import ManagerFacts SchedFacts NodeFacts RequestFacts.
Require Import Coq.Sorting.Sorted.
Local Open Scope Z_scope.

Definition GS (s : node) : Prop :=
  G (n_queue s) (n_seq s) (n_holders s) (n_requests s) (n_callbacks s) (n_reqs s) (n_log s).

Lemma GS_see s o : neutral o -> GS s -> GS (see s o).
Proof. intros. unfold GS. cbn. now apply G_neutral. Qed.

Lemma optN_eqb_spec a b : optN_eqb a b = true <-> a = b.
Proof.
  destruct a, b; cbn; split; intros H; try discriminate; auto.
  - apply N.eqb_eq in H. congruence.
  - apply N.eqb_eq. congruence.
Qed.

Lemma is_response_to_matches t q : is_response_to t q = true -> matches t (fst q) (snd q).
Proof.
  unfold is_response_to, matches. intros H.
  repeat (apply andb_prop in H; destruct H as [H ?]).
  repeat match goal with H : optN_eqb _ _ = true |- _ => apply optN_eqb_spec in H end.
  repeat match goal with H : N.eqb _ _ = true |- _ => apply N.eqb_eq in H end.
  repeat split; auto. now destruct (h_request (rx_header t)).
Qed.

Lemma find_request_in t l k : NoDup (map fst l) -> find_request t l = Some k ->
  exists q, dget key_eqb l k = Some q /\ is_response_to t q = true.
Proof.
  induction l as [|[k' q] l IH]; cbn; intros Nd H; [discriminate|]. inversion Nd; subst.
  destruct (is_response_to t q) eqn:E.
  - injection H as <-. exists q. rewrite (proj2 (key_eqb_spec k' k') eq_refl). auto.
  - destruct (IH H3 H) as (q' & Hq & Er). exists q'. split; auto.
    destruct (key_eqb k k') eqn:Ek; auto. apply key_eqb_spec in Ek. subst k'.
    exfalso. apply H2. apply (dget_In _ key_eqb_spec) in Hq. now apply (in_map fst) in Hq.
Qed.

Section Requests.
  Variable clk : nat -> Z.
  Variable beh : list nobs -> list (nop * bool) * outcome.
  Variable drv : list nobs -> list frame -> option exn.
  Variable status : list nobs -> value.
  Variable status_dt : datatype.
  Variable types : datatypes.
  Variable second : Z.

  Notation apply_nop := (apply_nop clk drv second).
  Notation apply_nops := (apply_nops clk drv second).
  Notation react := (react clk beh drv second).
  Notation call_handler := (call_handler clk beh drv second).
  Notation call_handlers := (call_handlers clk beh drv second).
  Notation recv_transfer := (recv_transfer clk beh drv second).
  Notation nexec := (nexec clk beh drv status status_dt second).
  Notation npoll := (npoll clk beh drv status status_dt second).
  Notation node_history := (node_history clk beh drv status status_dt types second).
  Notation request := (request clk drv second).
  Notation broadcast := (broadcast drv).
  Notation respond := (respond drv).

  Lemma GS_broadcast s dt v prio canfd : GS s -> GS (fst (broadcast s dt v prio canfd)).
  Proof.
    intros H. unfold Node.broadcast. destruct (anonymous s); auto. cbn [next_transfer_id].
    destruct (send _ _ _ _ _ _ _ _) as [s' r] eqn:E. apply send_shape in E.
    destruct E as (fs & err & -> & _ & Hr). destruct r; cbn [fst]; now apply GS_see.
  Qed.

  Lemma GS_respond s dt v dest tid prio canfd : GS s -> GS (fst (respond s dt v dest tid prio canfd)).
  Proof.
    intros H. unfold Node.respond. destruct (anonymous s); auto.
    destruct (send _ _ _ _ _ _ _ _) as [s' r] eqn:E. apply send_shape in E.
    destruct E as (fs & err & -> & _ & Hr). destruct r; cbn [fst]; now apply GS_see.
  Qed.

  Lemma GS_request s dt v dest prio timeout canfd : GS s ->
    GS (fst (request s dt v dest prio timeout canfd)).
  Proof.
    intros H. unfold Node.request. destruct (anonymous s); auto. cbn [next_transfer_id].
    destruct (send _ _ _ _ _ _ _ _) as [s' r] eqn:E. apply send_shape in E.
    destruct E as (fs & err & -> & _ & Hr). destruct r as [t|x].
    - destruct Hr as (-> & Eh & Et & _).
      destruct (message_id (tx_header t)) as [id|x] eqn:Ei; cbn [fst nread].
      + unfold GS. cbn. apply G_request; [now apply (GS_see s)|].
        rewrite Eh. eauto.
      + now apply (GS_see s).
    - now apply (GS_see s).
  Qed.

  Lemma holds_new (hold : list (nat * nat)) h (sq : nat) a : is_user a -> forall h' ev,
    dget Nat.eqb (dset Nat.eqb hold h sq) h' = Some ev ->
    ev = sq /\ is_user a \/ dget Nat.eqb hold h' = Some ev.
  Proof.
    intros Hu h' ev H. destruct (Nat.eq_dec h h') as [<-|Hne].
    - rewrite (dget_dset_same _ nat_eqb_spec) in H. injection H as <-. auto.
    - rewrite (dget_dset_other _ nat_eqb_spec) in H by auto. auto.
  Qed.

  Lemma GS_nop s op : GS s -> GS (fst (apply_nop s op)).
  Proof.
    intros H. destruct op; cbn [Node.apply_nop].
    - now apply GS_request.
    - now apply GS_broadcast.
    - now apply GS_respond.
    - unfold GS. cbn. eapply G_enter; [discriminate|apply (holds_new _ _ _ (ATask (n_tasks s))); exact I|exact H].
    - unfold GS. cbn. eapply G_enter; [discriminate|apply (holds_new _ _ _ (AEvery (n_tasks s) period)); exact I|exact H].
    - destruct (dget Nat.eqb (n_holders s) h) as [ev|] eqn:Eh; auto.
      destruct (cancel ev (n_queue s)) as [q|] eqn:Ec; auto. unfold GS. cbn.
      destruct (cancel_sub _ _ _ Ec) as (a & x & b & Eq & -> & Ex).
      apply G_remove with (x := x); [|rewrite <- Eq; exact H].
      eapply (proj2 (g_hold _ _ _ _ _ _ _ H h ev Eh)); auto. rewrite Eq. apply in_or_app. cbn; auto.
    - exact H.
    - destruct (remove_entry _ _); auto.
    - exact H.
    - unfold set_node_id. destruct (anonymous s); auto. destruct (_ && _); auto.
      now apply (GS_see s).
    - exact H.
  Qed.

  Lemma GS_react s : GS s -> GS (fst (react s)).
  Proof. apply react_ind. apply GS_nop. Qed.

  Lemma GS_handlers fuel s o i t : GS s -> GS (fst (call_handlers fuel s o i t)).
  Proof.
    apply call_handlers_ind.
    - apply GS_nop.
    - intros. now apply GS_see.
    - intros. now apply GS_respond.
  Qed.

  (** The state in which the callback is called with a response. *)
  Definition called (s : node) (r ev : nat) (t : rx) : node :=
    see (match cancel ev (n_queue s) with
         | Some q => set_queue s q (n_seq s)
         | None => s
         end) (OResponse r t).

  Lemma GS_called s r ev k t : GS s -> dget key_eqb (n_callbacks s) k = Some (r, ev) ->
    find_request t (n_requests s) = Some k -> GS (called s r ev t).
  Proof.
    intros H Hc Hf. unfold called, GS.
    destruct (find_request_in _ _ _ (g_ndR _ _ _ _ _ _ _ H) Hf) as (qq & Hq & Hm).
    assert (Hm' : forall h tid, dget key_eqb (n_requests s) k = Some (h, tid) -> matches t h tid).
    { intros h tid E. assert (qq = (h, tid)) by congruence. subst qq.
      apply is_response_to_matches in Hm. exact Hm. }
    destruct (cancel ev (n_queue s)) as [q|] eqn:Ec; cbn.
    - eapply G_response; eauto.
    - eapply G_response with (q := n_queue s); eauto.
  Qed.

  Lemma GS_finish s k : GS s ->
    GS (set_pending s (ddel key_eqb (n_requests s) k) (ddel key_eqb (n_callbacks s) k)).
  Proof. intros H. unfold GS. cbn. now apply G_forget. Qed.

  Lemma dmem_dget {A} (d : list (key * A)) k : dmem key_eqb d k = match dget key_eqb d k with Some _ => true | None => false end.
  Proof. unfold dmem. reflexivity. Qed.

  Lemma GS_recv fuel s t : GS s -> GS (fst (recv_transfer fuel s t)).
  Proof.
    intros H. unfold Node.recv_transfer. destruct (_ && _ && _).
    - destruct (find_request t (n_requests s)) as [k|] eqn:Ef; auto.
      destruct (dget key_eqb (n_callbacks s) k) as [[r ev]|] eqn:Ec; auto.
      fold (called s r ev t).
      pose proof (GS_react _ (GS_called s r ev k t H Ec Ef)) as H2.
      destruct (react (called s r ev t)) as [s2 [y|x]]; cbn [fst] in *; auto.
      rewrite !dmem_dget.
      destruct (dget key_eqb (n_requests s2) k) eqn:E1; cbn [negb]; auto.
      destruct (dget key_eqb (n_callbacks s2) k) eqn:E2; cbn [negb].
      + now apply GS_finish.
      + apply (g_same _ _ _ _ _ _ _ H2) in E2. congruence.
    - destruct (_ || _ || _); auto. now apply GS_handlers.
  Qed.

  Lemma G_status_again e q sq hold R C reqs l p t : ev_act e = AStatus p ->
    G (e :: q) sq hold R C reqs l -> G (heappush (Event t 0 sq (AStatus p)) q) (S sq) hold R C reqs l.
  Proof.
    intros Ea I.
    assert (J : G (heappush (Event t 0 sq (AStatus p)) (e :: q)) (S sq) hold R C reqs l).
    { eapply G_enter; eauto. discriminate. }
    (* removing the old status event *)
    destruct I. inversion g_nodup as [|? ? Nd1 Nd2]; subst. inversion g_seqs as [|? ? Sq1 Sq2]; subst.
    inversion g_sorted as [|? ? So1 So2]; subst.
    assert (Hsub : forall x, In x (heappush (Event t 0 sq (AStatus p)) q) ->
                             In x (heappush (Event t 0 sq (AStatus p)) (e :: q))).
    { intros x. rewrite !heappush_in. cbn. tauto. }
    assert (Hp : forall r, pending r (e :: q) = pending r q).
    { intros r. unfold pending. cbn. unfold is_timeout at 1. now rewrite Ea. }
    destruct J. constructor; auto.
    - apply heappush_sorted; auto. eapply Forall_impl; [|exact Sq2]. cbn. lia.
    - apply heappush_seqs; auto. eapply Forall_impl; [|exact Sq2]. cbn. lia.
    - rewrite Forall_forall in *. auto.
    - intros h ev Hev. destruct (g_hold0 h ev Hev) as [A B]. auto.
    - intros k r ev Hk. destruct (g_ent0 k r ev Hk) as (A & B & D & E & F & X).
      repeat (split; auto).
    - intros x r k Hx Ex. eauto.
    - intros r Hr. specialize (g_one0 r Hr). rewrite pending_push in *. rewrite Hp in g_one0. exact g_one0.
    - exists (Event t 0 sq (AStatus p)), p. split; auto. apply heappush_in. auto.
  Qed.

  (** The state in which an action is called. *)
  Lemma GS_exec s e q now : GS s -> n_queue s = e :: q -> ev_time e <= now ->
    GS (fst (nexec e now (npop s))).
  Proof.
    intros H Eq Hdue. unfold GS in H. rewrite Eq in H. unfold Node.nexec.
    destruct (ev_act e) as [p|h|h p|r k] eqn:Ea.
    - match goal with |- context [if anonymous ?s1 then _ else _] => assert (GS s1) end.
      { unfold GS. cbn. rewrite Eq. cbn. now apply G_status_again with (e := e). }
      destruct (anonymous _); auto. now apply GS_broadcast.
    - assert (H1 : GS (see (npop s) (OTask h now))).
      { unfold GS. cbn. rewrite Eq. cbn. apply G_neutral; [exact I|].
        apply G_pop_user with (e := e); auto. rewrite Ea. exact I. }
      apply GS_react in H1. destruct (react _). exact H1.
    - match goal with |- context [react ?s1] => assert (H1 : GS s1) end.
      { unfold GS. cbn. rewrite Eq. cbn. apply G_neutral; [exact I|].
        eapply G_enter; [discriminate|apply (holds_new _ _ _ (AEvery h p)); exact I|].
        apply G_pop_user with (e := e); auto. rewrite Ea. exact I. }
      apply GS_react in H1. destruct (react _). exact H1.
    - match goal with |- context [react ?s1] => assert (H1 : GS s1) end.
      { unfold GS. cbn. rewrite Eq. cbn. eapply G_timeout; eauto. }
      apply GS_react in H1. destruct (react _). exact H1.
  Qed.

  Lemma GS_history fuel s ins : GS s -> GS (node_history fuel s ins).
  Proof.
    apply history_ind; auto.
    - apply GS_nop.
    - apply GS_recv.
    - intros; eapply GS_exec; eauto.
  Qed.

  Lemma GS_poll fuel s : GS s -> GS (fst (npoll fuel s)).
  Proof. apply npoll_ind; auto. intros; eapply GS_exec; eauto. Qed.

  Lemma GS_new id canfd catch interval info : GS (new_node clk id canfd catch interval info).
  Proof.
    unfold GS. cbn. constructor; cbn.
    - repeat constructor.
    - repeat constructor; auto.
    - repeat constructor; cbn; lia.
    - discriminate.
    - constructor.
    - constructor.
    - tauto.
    - discriminate.
    - discriminate.
    - intros e r k [<-|[]] E. discriminate.
    - intros r Hr. lia.
    - tauto.
    - intros l1 o l2 E. destruct l1; discriminate.
    - eexists _, _. split; [left; reflexivity|reflexivity].
  Qed.

  (** ** Callbacks that return normally *)

  (** [x]: the request whose callback is being called with a response, and
      its key. *)
  Definition K (x : option (nat * key)) (s : node) : Prop :=
    GS s /\ (forall r, (responses r (n_log s) <= 1)%nat) /\
    forall k r ev, dget key_eqb (n_callbacks s) k = Some (r, ev) ->
      responses r (n_log s) = 0%nat \/ x = Some (r, k).

  Lemma K_see x s o : neutral o -> K x s -> K x (see s o).
  Proof.
    intros Ho (H1 & H2 & H3). split; [now apply GS_see|]. cbn.
    assert (E : forall r, responses r (n_log s ++ [o]) = responses r (n_log s)).
    { intros r. rewrite responses_app, (proj1 (neutral_counts r o Ho)). lia. }
    split; intros; rewrite E; auto. eauto.
  Qed.

  Lemma K_nop x s op : K x s -> K x (fst (apply_nop s op)).
  Proof.
    intros H. assert (Hg : GS (fst (apply_nop s op))) by (apply GS_nop; apply H).
    assert (Hs : forall s', n_log s' = n_log s -> n_callbacks s' = n_callbacks s -> GS s' -> K x s').
    { intros s' E1 E2 Hs'. destruct H as (H1 & H2 & H3). split; auto. rewrite E1, E2. auto. }
    assert (Ho : forall s' o, n_log s' = n_log s ++ [o] -> neutral o -> n_callbacks s' = n_callbacks s -> GS s' -> K x s').
    { intros s' o E1 Hn E2 Hs'. destruct (K_see x s o Hn H) as (H1 & H2 & H3).
      split; auto. rewrite E1, E2. auto. }
    destruct op; cbn [Node.apply_nop] in *.
    - revert Hg. unfold Node.request. destruct (anonymous s); auto. cbn [next_transfer_id].
      destruct (send _ _ _ _ _ _ _ _) as [s' r] eqn:E. apply send_shape in E.
      destruct E as (fs & err & -> & _ & Hr). destruct r as [t|x0].
      2:{ intros Hg. eapply Ho; eauto; try reflexivity; exact I. }
      destruct (message_id (tx_header t)) as [id|x0]; cbn [fst nread].
      2:{ intros Hg. eapply Ho; eauto; try reflexivity; exact I. }
      intros Hg. split; auto. clear Hg Hs Ho. destruct H as (H1 & H2 & H3). cbn.
      assert (E : forall r o, responses r ((n_log s ++ [OSend (Some (dt_id dt, Some dest)) (sent_header (Header (or_default prio) true true (n_id s) (Some dest) 0 None) dt) o fs err]) ++
        [ORequest (n_reqs s) (tx_header t) o (clk (n_reads s) + match timeout with Some t0 => if t0 =? 0 then second else t0 | None => second end)]) = responses r (n_log s)).
      { intros r o. rewrite !responses_app. cbn. lia. }
      split; [intros r; rewrite E; auto|]. intros k r ev. rewrite E.
      match goal with |- context [dset key_eqb (n_callbacks s) ?k0 _] => destruct (key_eqb k0 k) eqn:Ek end.
      + apply key_eqb_spec in Ek. rewrite Ek, (dget_dset_same _ key_eqb_spec). intros Er. injection Er as <- <-.
        left. apply (g_fresh _ _ _ _ _ _ _ H1). lia.
      + intros Hd. rewrite (dget_dset_other _ key_eqb_spec) in Hd; eauto.
        intros E'. rewrite (proj2 (key_eqb_spec _ _) E') in Ek. discriminate.
    - revert Hg. unfold Node.broadcast. destruct (anonymous s); auto. cbn [next_transfer_id].
      destruct (send _ _ _ _ _ _ _ _) as [s' r] eqn:E. apply send_shape in E.
      destruct E as (fs & err & -> & _ & Hr). destruct r; cbn [fst]; intros Hg;
        eapply Ho; eauto; try reflexivity; exact I.
    - revert Hg. unfold Node.respond. destruct (anonymous s); auto.
      destruct (send _ _ _ _ _ _ _ _) as [s' r] eqn:E. apply send_shape in E.
      destruct E as (fs & err & -> & _ & Hr). destruct r; cbn [fst]; intros Hg;
        eapply Ho; eauto; try reflexivity; exact I.
    - apply Hs; auto.
    - apply Hs; auto.
    - destruct (dget Nat.eqb (n_holders s) h) as [ev|]; auto.
      destruct (cancel ev (n_queue s)); auto.
    - apply Hs; auto.
    - destruct (remove_entry _ _); auto.
    - apply Hs; auto.
    - revert Hg. unfold set_node_id. destruct (anonymous s); auto. destruct (_ && _); auto.
      intros Hg. eapply Ho; eauto; try reflexivity; exact I.
    - apply Hs; auto.
  Qed.

  Lemma K_react x s : K x s -> K x (fst (react s)).
  Proof. apply react_ind. apply K_nop. Qed.

  Lemma K_respond x s dt v dest tid prio canfd : K x s -> K x (fst (respond s dt v dest tid prio canfd)).
  Proof.
    intros H. unfold Node.respond. destruct (anonymous s); auto.
    destruct (send _ _ _ _ _ _ _ _) as [s' r] eqn:E. apply send_shape in E.
    destruct E as (fs & err & -> & _ & Hr). destruct r; cbn [fst]; now apply K_see.
  Qed.

  Lemma K_broadcast x s dt v prio canfd : K x s -> K x (fst (broadcast s dt v prio canfd)).
  Proof. exact (K_nop x s (NBroadcast dt v prio canfd)). Qed.

  Lemma K_handlers x fuel s o i t : K x s -> K x (fst (call_handlers fuel s o i t)).
  Proof.
    apply call_handlers_ind.
    - apply K_nop.
    - intros. now apply K_see.
    - intros. now apply K_respond.
  Qed.

  (** Adding to the log never removes; entries of [n_requests] stay. *)
  Lemma nops_caught ops : (forall op c, In (op, c) ops -> c = true) ->
    forall s, snd (apply_nops s ops) = None.
  Proof.
    induction ops as [|[op c] ops IH]; cbn; intros H s; auto.
    rewrite (H op c) by auto.
    destruct (apply_nop s op) as [s1 [x|]]; apply IH; intros; eapply H; eauto.
  Qed.

  Lemma calm_returns s r t : calm beh -> exists s' y, react (see s (OResponse r t)) = (s', Ok y).
  Proof.
    intros Hc. specialize (Hc (n_log s) r t). unfold Node.react. cbn [n_log see].
    destruct (beh (n_log s ++ [OResponse r t])) as [ops out]. destruct Hc as [H1 H2].
    pose proof (nops_caught ops H1 (see s (OResponse r t))) as H.
    destruct (apply_nops (see s (OResponse r t)) ops) as [s' [x|]]; [discriminate|].
    destruct out; [eauto|congruence].
  Qed.

  (** Operations do not forget requests. *)
  Lemma keeps_nop k s op : dmem key_eqb (n_requests s) k = true ->
    dmem key_eqb (n_requests (fst (apply_nop s op))) k = true.
  Proof.
    intros H. destruct op; cbn [Node.apply_nop]; auto.
    - unfold Node.request. destruct (anonymous s); auto. cbn [next_transfer_id].
      destruct (send _ _ _ _ _ _ _ _) as [s' r] eqn:E. apply send_shape in E.
      destruct E as (fs & err & -> & _ & Hr). destruct r as [t|x0]; auto.
      destruct (message_id (tx_header t)) as [id|x0]; cbn [fst nread]; auto.
      cbn. rewrite dmem_dget in *.
      match goal with |- context [dset key_eqb (n_requests s) ?k0 _] => destruct (key_eqb k0 k) eqn:Ek end.
      + apply key_eqb_spec in Ek. now rewrite Ek, (dget_dset_same _ key_eqb_spec).
      + rewrite (dget_dset_other _ key_eqb_spec); auto.
        intros E'. rewrite (proj2 (key_eqb_spec _ _) E') in Ek. discriminate.
    - unfold Node.broadcast. destruct (anonymous s); auto. cbn [next_transfer_id].
      destruct (send _ _ _ _ _ _ _ _) as [s' r] eqn:E. apply send_shape in E.
      destruct E as (fs & err & -> & _ & Hr). destruct r; auto.
    - unfold Node.respond. destruct (anonymous s); auto.
      destruct (send _ _ _ _ _ _ _ _) as [s' r] eqn:E. apply send_shape in E.
      destruct E as (fs & err & -> & _ & Hr). destruct r; auto.
    - destruct (dget Nat.eqb (n_holders s) h) as [ev|]; auto. destruct (cancel ev (n_queue s)); auto.
    - destruct (remove_entry _ _); auto.
    - unfold set_node_id. destruct (anonymous s); auto. destruct (_ && _); auto.
  Qed.

  Lemma K_recv fuel s t : calm beh -> K None s -> K None (fst (recv_transfer fuel s t)).
  Proof.
    intros Hc H. unfold Node.recv_transfer. destruct (_ && _ && _).
    - destruct (find_request t (n_requests s)) as [k|] eqn:Ef; auto.
      destruct (dget key_eqb (n_callbacks s) k) as [[r ev]|] eqn:Ec; auto.
      fold (called s r ev t).
      assert (H0 : K (Some (r, k)) (called s r ev t)).
      { split; [apply GS_called with k; auto; apply H|]. destruct H as (H1 & H2 & H3).
        assert (Er : forall r', responses r' (n_log (called s r ev t)) =
                      (responses r' (n_log s) + if Nat.eqb r r' then 1 else 0)%nat).
        { intros r'. unfold called. destruct (cancel ev (n_queue s)); cbn; rewrite responses_app; cbn;
            destruct (Nat.eqb r r'); reflexivity. }
        assert (Ecb : n_callbacks (called s r ev t) = n_callbacks s).
        { unfold called. destruct (cancel ev (n_queue s)); reflexivity. }
        destruct (H3 k r ev Ec) as [Hz|Hz]; [|discriminate]. split.
        - intros r'. rewrite Er. specialize (H2 r'). destruct (Nat.eqb_spec r r') as [<-|]; lia.
        - intros k' r' ev'. rewrite Ecb, Er. intros Hd. destruct (Nat.eqb_spec r r') as [<-|Hne].
          + right. f_equal. f_equal. apply (g_inj _ _ _ _ _ _ _ H1 k k' r ev ev'); auto.
          + destruct (H3 k' r' ev' Hd) as [Hz'|Hz']; [left; lia|discriminate]. }
      pose proof (K_react _ _ H0) as H2.
      assert (Hk : dmem key_eqb (n_requests (fst (react (called s r ev t)))) k = true).
      { apply (react_ind clk beh drv second (fun s => dmem key_eqb (n_requests s) k = true)).
        - intros; now apply keeps_nop.
        - rewrite dmem_dget. unfold called.
          assert (Hs : dget key_eqb (n_requests s) k <> None).
          { intros E. apply (g_same _ _ _ _ _ _ _ (proj1 H)) in E. congruence. }
          destruct (cancel ev (n_queue s)); cbn; destruct (dget key_eqb (n_requests s) k); congruence. }
      destruct (calm_returns (match cancel ev (n_queue s) with
         | Some q => set_queue s q (n_seq s) | None => s end) r t Hc) as (s2 & y & E2).
      fold (called s r ev t) in E2. rewrite E2 in *. cbn [fst] in *. rewrite Hk. cbn [negb].
      destruct H2 as (HG & HB & HE).
      rewrite dmem_dget in Hk. rewrite dmem_dget.
      destruct (dget key_eqb (n_callbacks s2) k) as [e2|] eqn:E3.
      2:{ apply (g_same _ _ _ _ _ _ _ HG) in E3. rewrite E3 in Hk. discriminate. }
      cbn [negb fst]. split; [now apply GS_finish|]. cbn. split; auto.
      intros k' r' ev' Hd. destruct (key_eqb k k') eqn:Ek.
      + apply key_eqb_spec in Ek. subst k'. rewrite (dget_ddel_same _ key_eqb_spec) in Hd; [discriminate|].
        apply (g_ndC _ _ _ _ _ _ _ HG).
      + assert (k <> k') by (intros ->; rewrite (proj2 (key_eqb_spec k' k') eq_refl) in Ek; discriminate).
        rewrite (dget_ddel_other _ key_eqb_spec) in Hd by auto.
        destruct (HE k' r' ev' Hd) as [Hz|Hz]; auto. congruence.
    - destruct (_ || _ || _); auto. now apply K_handlers.
  Qed.

  Lemma K_exec x s e q now : K x s -> n_queue s = e :: q -> ev_time e <= now ->
    K x (fst (nexec e now (npop s))).
  Proof.
    intros (H1 & H2 & H3) Eq Hdue.
    pose proof H1 as Hg. unfold GS in Hg. rewrite Eq in Hg.
    unfold Node.nexec. destruct (ev_act e) as [p|h|h p|r k] eqn:Ea.
    - match goal with |- context [if anonymous ?s1 then _ else _] => assert (K x s1) end.
      { split; auto. unfold GS. cbn. rewrite Eq. cbn. now apply G_status_again with (e := e). }
      destruct (anonymous _); auto. now apply K_broadcast.
    - match goal with |- context [react ?s1] => assert (H0 : K x s1) end.
      { apply K_see; [exact I|]. split; auto. unfold GS. cbn. rewrite Eq. cbn.
        apply G_pop_user with (e := e); auto. rewrite Ea. exact I. }
      apply K_react in H0. destruct (react _). exact H0.
    - match goal with |- context [react ?s1] => assert (H0 : K x s1) end.
      { apply K_see; [exact I|]. split; auto. unfold GS. cbn. rewrite Eq. cbn.
        eapply G_enter; [discriminate|apply (holds_new _ _ _ (AEvery h p)); exact I|].
        apply G_pop_user with (e := e); auto. rewrite Ea. exact I. }
      apply K_react in H0. destruct (react _). exact H0.
    - match goal with |- context [react ?s1] => assert (H0 : K x s1) end.
      { split.
        - unfold GS. cbn. rewrite Eq. cbn. eapply G_timeout; eauto.
        - cbn. assert (E : forall r', responses r' (n_log s ++ [OTimeout r now]) = responses r' (n_log s)).
          { intros r'. rewrite responses_app. cbn. lia. }
          split; intros; rewrite E; auto. eapply H3.
          match goal with H : dget key_eqb (ddel key_eqb _ k) ?k' = Some _ |- _ =>
            destruct (key_eqb k k') eqn:Ek;
            [apply key_eqb_spec in Ek; subst k';
             rewrite (dget_ddel_same _ key_eqb_spec) in H by apply (g_ndC _ _ _ _ _ _ _ H1); discriminate|
             rewrite (dget_ddel_other _ key_eqb_spec) in H; [exact H|];
             intros E'; rewrite (proj2 (key_eqb_spec _ _) E') in Ek; discriminate] end. }
      apply K_react in H0. destruct (react _). exact H0.
  Qed.

  Lemma K_history fuel s ins : calm beh -> K None s -> K None (node_history fuel s ins).
  Proof.
    intros Hc. apply history_ind.
    - apply K_nop.
    - intros. now apply K_recv.
    - intros s' m H. exact H.
    - intros s' H. exact H.
    - intros; eapply K_exec; eauto.
  Qed.

  (** ** Polling *)

  Lemma reads_nop n s op : (n <= n_reads s)%nat -> (n <= n_reads (fst (apply_nop s op)))%nat.
  Proof.
    intros H. destruct op; cbn [Node.apply_nop]; try (cbn; lia).
    - unfold Node.request. destruct (anonymous s); auto. cbn [next_transfer_id].
      destruct (send _ _ _ _ _ _ _ _) as [s' r] eqn:E. apply send_shape in E.
      destruct E as (fs & err & -> & _ & Hr). destruct r as [t|x0]; auto.
      destruct (message_id (tx_header t)) as [id|x0]; cbn; lia.
    - unfold Node.broadcast. destruct (anonymous s); auto. cbn [next_transfer_id].
      destruct (send _ _ _ _ _ _ _ _) as [s' r] eqn:E. apply send_shape in E.
      destruct E as (fs & err & -> & _ & Hr). destruct r; auto.
    - unfold Node.respond. destruct (anonymous s); auto.
      destruct (send _ _ _ _ _ _ _ _) as [s' r] eqn:E. apply send_shape in E.
      destruct E as (fs & err & -> & _ & Hr). destruct r; auto.
    - destruct (dget Nat.eqb (n_holders s) h) as [ev|]; auto. destruct (cancel ev (n_queue s)); auto.
    - destruct (remove_entry _ _); auto.
    - unfold set_node_id. destruct (anonymous s); auto. destruct (_ && _); auto.
  Qed.

  Lemma reads_exec n e now s : (n <= n_reads s)%nat -> (n <= n_reads (fst (nexec e now s)))%nat.
  Proof.
    intros H. unfold Node.nexec.
    assert (Hr : forall s', (n <= n_reads s')%nat -> (n <= n_reads (fst (react s')))%nat).
    { intros s'. apply (react_ind clk beh drv second (fun s => (n <= n_reads s)%nat)). intros; now apply reads_nop. }
    destruct (ev_act e).
    - destruct (anonymous _); cbn [fst]; [exact H|].
      match goal with |- context [broadcast ?s1 ?d ?v ?p ?c] =>
        change (broadcast s1 d v p c) with (apply_nop s1 (NBroadcast d v p c)) end.
      now apply reads_nop.
    - match goal with |- context [react ?s1] => specialize (Hr s1 H); destruct (react s1) end. exact Hr.
    - match goal with |- context [react ?s1] => specialize (Hr s1 H); destruct (react s1) end. exact Hr.
    - match goal with |- context [react ?s1] => specialize (Hr s1 H); destruct (react s1) end. exact Hr.
  Qed.

  Lemma nrun_remaining fuel : forall s s' r, GS s ->
    run n_queue npop (nread clk) nexec fuel s = (s', Remaining r) ->
    (n_reads s < n_reads s')%nat /\ Forall (fun e => clk (pred (n_reads s')) < ev_time e) (n_queue s').
  Proof.
    induction fuel as [|fuel IH]; cbn [run]; intros s s' r HG H; [discriminate|].
    destruct (n_queue s) as [|e q] eqn:Eq; [discriminate|]. cbn [nread] in H.
    set (s1 := set_reads s (S (n_reads s))) in *.
    destruct (Z.ltb_spec (clk (n_reads s)) (ev_time e)) as [L|L].
    - assert (s' = s1) by congruence. subst s' s1. cbn. split; [lia|]. rewrite Eq.
      pose proof (g_sorted _ _ _ _ _ _ _ HG) as Ss. rewrite Eq in Ss. inversion Ss as [|? ? _ S2]; subst.
      constructor; auto. eapply Forall_impl; [|exact S2]. unfold ev_lt. intros; lia.
    - assert (G2 : GS (fst (nexec e (clk (n_reads s)) (npop s1)))) by (eapply GS_exec; eauto).
      assert (Hr : (S (n_reads s) <= n_reads (fst (nexec e (clk (n_reads s)) (npop s1))))%nat)
        by (apply reads_exec; cbn; lia).
      destruct (nexec e (clk (n_reads s)) (npop s1)) as [s2 [x|]]; [discriminate|].
      cbn [fst] in *. destruct (IH s2 s' r G2 H). split; auto. lia.
  Qed.

  (** The log only grows. *)
  Lemma log_nop l s op : (exists l', n_log s = l ++ l') -> exists l', n_log (fst (apply_nop s op)) = l ++ l'.
  Proof.
    intros (l' & H). 
    assert (Hs : forall s', n_log s' = n_log s -> exists l', n_log s' = l ++ l') by (intros s' ->; eauto).
    assert (Ho : forall s' o, n_log s' = n_log s ++ [o] -> exists l', n_log s' = l ++ l').
    { intros s' o ->. rewrite H, <- app_assoc. eauto. }
    destruct op; cbn [Node.apply_nop]; try (apply Hs; reflexivity).
    - unfold Node.request. destruct (anonymous s); eauto. cbn [next_transfer_id].
      destruct (send _ _ _ _ _ _ _ _) as [s' r] eqn:E. apply send_shape in E.
      destruct E as (fs & err & -> & _ & Hr). destruct r as [t|x0]; [|eapply Ho; reflexivity].
      destruct (message_id (tx_header t)) as [id|x0]; cbn.
      + rewrite H, <- !app_assoc. eauto.
      + rewrite H, <- app_assoc. eauto.
    - unfold Node.broadcast. destruct (anonymous s); eauto. cbn [next_transfer_id].
      destruct (send _ _ _ _ _ _ _ _) as [s' r] eqn:E. apply send_shape in E.
      destruct E as (fs & err & -> & _ & Hr). destruct r; eapply Ho; reflexivity.
    - unfold Node.respond. destruct (anonymous s); eauto.
      destruct (send _ _ _ _ _ _ _ _) as [s' r] eqn:E. apply send_shape in E.
      destruct E as (fs & err & -> & _ & Hr). destruct r; eapply Ho; reflexivity.
    - destruct (dget Nat.eqb (n_holders s) h) as [ev|]; eauto. destruct (cancel ev (n_queue s)); apply Hs; reflexivity.
    - destruct (remove_entry _ _); apply Hs; reflexivity.
    - unfold set_node_id. destruct (anonymous s); eauto. destruct (_ && _); [eapply Ho|apply Hs]; reflexivity.
  Qed.

  Lemma log_react l s : (exists l', n_log s = l ++ l') -> exists l', n_log (fst (react s)) = l ++ l'.
  Proof. apply (react_ind clk beh drv second (fun s => exists l', n_log s = l ++ l')). intros; now apply log_nop. Qed.

  Lemma log_see l s o : (exists l', n_log s = l ++ l') -> exists l', n_log (see s o) = l ++ l'.
  Proof. intros (l' & H). cbn. rewrite H, <- app_assoc. eauto. Qed.

  Lemma log_exec l e now s : (exists l', n_log s = l ++ l') -> exists l', n_log (fst (nexec e now s)) = l ++ l'.
  Proof.
    intros H. unfold Node.nexec.
    assert (Hr : forall s' o, n_log s' = n_log s -> exists l', n_log (fst (react (see s' o))) = l ++ l').
    { intros s' o E. apply log_react, log_see. now rewrite E. }
    destruct (ev_act e).
    - destruct (anonymous _); cbn [fst]; [exact H|].
      match goal with |- context [broadcast ?s1 ?d ?v ?p ?c] =>
        change (broadcast s1 d v p c) with (apply_nop s1 (NBroadcast d v p c)) end.
      now apply log_nop.
    - match goal with |- context [react (see ?s1 ?o)] => specialize (Hr s1 o eq_refl); destruct (react (see s1 o)) end. exact Hr.
    - match goal with |- context [react (see ?s1 ?o)] => specialize (Hr s1 o eq_refl); destruct (react (see s1 o)) end. exact Hr.
    - match goal with |- context [react (see ?s1 ?o)] => specialize (Hr s1 o eq_refl); destruct (react (see s1 o)) end. exact Hr.
  Qed.

  Lemma log_poll fuel s : exists l, n_log (fst (npoll fuel s)) = n_log s ++ l.
  Proof.
    apply (npoll_ind clk beh drv status status_dt second (fun s' => exists l', n_log s' = n_log s ++ l')); auto.
    - intros. now apply log_exec.
    - exists []. now rewrite app_nil_r.
  Qed.

  Lemma request_unique l r h tid dl h' tid' dl' : nlegal l ->
    In (ORequest r h tid dl) l -> In (ORequest r h' tid' dl') l -> dl = dl'.
  Proof.
    intros HL H1 H2. apply in_split in H1. destruct H1 as (a & b & ->).
    apply in_app_or in H2. destruct H2 as [H2|[E|H2]].
    - exfalso. destruct (HL a (ORequest r h tid dl) b eq_refl) as [_ Hn]. eapply Hn; eauto.
    - congruence.
    - exfalso. apply in_split in H2. destruct H2 as (c & d & ->).
      destruct (HL (a ++ ORequest r h tid dl :: c) (ORequest r h' tid' dl') d) as [_ Hn].
      { rewrite <- app_assoc. reflexivity. }
      apply (Hn h tid dl). apply in_or_app. cbn. auto.
  Qed.

  (** C25: after a poll that returned normally, every request whose deadline
      had passed has had its callback called. *)
  Lemma polled fuel s s' d r h tid dl : (forall i j, (i <= j)%nat -> clk i <= clk j) -> GS s ->
    npoll fuel s = (s', Ok d) -> In (ORequest r h tid dl) (n_log s) -> dl <= clk (n_reads s) ->
    (0 < responses r (n_log s') + timeouts r (n_log s'))%nat.
  Proof.
    intros Hm HG Hp Hin Hdl.
    assert (Hp' := Hp). unfold Node.npoll in Hp.
    destruct (run n_queue npop (nread clk) nexec fuel s) as [s1 res] eqn:Er.
    destruct res as [t| |x|]; try discriminate. cbn [nread] in Hp.
    assert (Es : s' = set_reads s1 (S (n_reads s1))) by congruence. subst s'. cbn [n_log set_reads].
    pose proof (nrun_remaining _ _ _ _ HG Er) as [Hlt Hf].
    pose proof (nrun_ind clk beh drv status status_dt second GS (fun s H => H) (fun s e q now H1 H2 H3 => GS_exec s e q now H1 H2 H3) fuel s HG) as G1.
    rewrite Er in G1. cbn [fst] in G1.
    destruct (log_poll fuel s) as (l & El). rewrite Hp' in El. cbn in El.
    assert (Hin1 : In (ORequest r h tid dl) (n_log s1)) by (rewrite El; apply in_or_app; auto).
    assert (Hr : (r < n_reqs s1)%nat).
    { destruct (Nat.lt_ge_cases r (n_reqs s1)) as [|Hge]; auto. exfalso.
      destruct (g_fresh _ _ _ _ _ _ _ G1 r Hge) as (_ & _ & Hn). eapply Hn; eauto. }
    destruct (g_one _ _ _ _ _ _ _ G1 r Hr) as [[A B]|(A & B & D)]; [|lia].
    destruct (timeouts r (n_log s1)) as [|n] eqn:Et; [|lia]. exfalso.
    assert (Hex : exists e k, In e (n_queue s1) /\ ev_act e = ATimeout r k).
    { unfold pending in B. destruct (filter (is_timeout r) (n_queue s1)) as [|e l0] eqn:Ef; [cbn in B; lia|].
      assert (Hi : In e (filter (is_timeout r) (n_queue s1))) by (rewrite Ef; cbn; auto).
      apply filter_In in Hi. destruct Hi as [Hi Ht]. unfold is_timeout in Ht.
      destruct (ev_act e) as [| | |r' k] eqn:Ea; try discriminate. apply Nat.eqb_eq in Ht. subst r'. eauto. }
    destruct Hex as (e & k & He & Ea).
    destruct (g_ev _ _ _ _ _ _ _ G1 e r k He Ea) as (_ & h' & tid' & Hin').
    pose proof (request_unique _ _ _ _ _ _ _ _ (g_legal _ _ _ _ _ _ _ G1) Hin1 Hin') as Edl.
    rewrite Forall_forall in Hf. specialize (Hf e He).
    pose proof (Hm (n_reads s) (pred (n_reads s1))). lia.
  Qed.

  (** C65 needs: the poll never finds an empty queue. *)
  Lemma poll_never_empty fuel s s' : GS s -> npoll fuel s <> (s', Err TypeError) \/
    exists s1, run n_queue npop (nread clk) nexec fuel s = (s1, Raised TypeError).
  Proof.
    intros HG. unfold Node.npoll.
    destruct (run n_queue npop (nread clk) nexec fuel s) as [s1 res] eqn:Er.
    destruct res as [t| |x|].
    - left. cbn. congruence.
    - exfalso. revert s s1 HG Er. induction fuel as [|fuel IH]; cbn [run]; intros s s1 HG Er; [discriminate|].
      destruct (n_queue s) as [|e q] eqn:Eq.
      + destruct (g_status _ _ _ _ _ _ _ HG) as (e & p & Hi & _). rewrite Eq in Hi. destruct Hi.
      + cbn [nread] in Er. destruct (Z.ltb_spec (clk (n_reads s)) (ev_time e)); [discriminate|].
        match type of Er with context [nexec e ?now ?s2] => 
          assert (G2 : GS (fst (nexec e now s2))) by (apply GS_exec with (q := q); auto);
          destruct (nexec e now s2) as [s3 [y|]] end; [discriminate|]. eapply IH; eauto.
    - destruct x; try (left; congruence). right. eauto.
    - left. congruence.
  Qed.
End Requests.

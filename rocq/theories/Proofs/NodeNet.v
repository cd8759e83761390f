(** Receiving whole transfers at a node. *)
From Verif.Base Require Import Prelude.
From Verif.Model Require Import Types Codec MsgId Frames TransferManager Sched Node.
From Verif.Spec Require Import CodecSpec MsgIdSpec FrameSpec ReassemblySpec SendingSpec NodeSpec.
From Verif.Proofs Require Import ReassemblyFacts ManagerFacts TransferTop NodeFacts RequestFacts NodeRequests NodeDispatch NodeTop.
Local Open Scope Z_scope.

Section Net.
  Variable clk : nat -> Z.
  Variable beh : list nobs -> list (nop * bool) * outcome.
  Variable drv : list nobs -> list frame -> option exn.
  Variable status : list nobs -> value.
  Variable status_dt : datatype.
  Variable types : datatypes.
  Variable second : Z.

  Notation apply_nop := (apply_nop clk drv second).
  Notation recv_transfer := (recv_transfer clk beh drv second).
  Notation recv_frame := (recv_frame clk beh drv types second).
  Notation nexec := (nexec clk beh drv status status_dt second).
  Notation npoll := (npoll clk beh drv status status_dt second).
  Notation node_history := (node_history clk beh drv status status_dt types second).
  Notation call_handler := (call_handler clk beh drv second).
  Notation call_handlers := (call_handlers clk beh drv second).
  Notation react := (react clk beh drv second).
  Notation respond := (respond drv).
  Notation broadcast := (broadcast drv).
  Notation send := (send drv).

  (** What operations, handlers and tasks leave alone. *)
  Section Fixed.
    Variables (m : manager) (c : bool).
    Definition fixed (s : node) : Prop := n_manager s = m /\ n_catch s = c.

    Lemma fixed_send s sess h tid dt v canfd : fixed s -> fixed (fst (send s sess h tid dt v canfd)).
    Proof.
      destruct (send s sess h tid dt v canfd) as [s' r] eqn:E. apply send_shape in E.
      destruct E as (fs & err & -> & _). exact (fun H => H).
    Qed.

    Lemma fixed_nop s op : fixed s -> fixed (fst (apply_nop s op)).
    Proof.
      intros H. destruct op; cbn [Node.apply_nop]; auto.
      - unfold Node.request. destruct (anonymous s); auto. cbn [next_transfer_id].
        destruct (send _ _ _ _ _ _ _) as [s' r] eqn:E. apply send_shape in E.
        destruct E as (fs & err & -> & _). destruct r; [|exact H]. destruct (message_id _); exact H.
      - unfold Node.broadcast. destruct (anonymous s); auto. cbn [next_transfer_id].
        destruct (send _ _ _ _ _ _ _) as [s' r] eqn:E. apply send_shape in E.
        destruct E as (fs & err & -> & _). destruct r; exact H.
      - unfold Node.respond. destruct (anonymous s); auto.
        destruct (send _ _ _ _ _ _ _) as [s' r] eqn:E. apply send_shape in E.
        destruct E as (fs & err & -> & _). destruct r; exact H.
      - destruct (dget Nat.eqb _ _) as [ev|]; auto. destruct (cancel _ _); auto.
      - destruct (remove_entry _ _); auto.
      - unfold set_node_id. destruct (anonymous s); auto. destruct (_ && _); auto.
    Qed.

    Lemma fixed_respond s dt v dest tid prio canfd : fixed s -> fixed (fst (respond s dt v dest tid prio canfd)).
    Proof.
      intros H. unfold Node.respond. destruct (anonymous s); auto.
      destruct (send _ _ _ _ _ _ _) as [s' r] eqn:E. apply send_shape in E.
      destruct E as (fs & err & -> & _). destruct r; exact H.
    Qed.

    Lemma fixed_react s : fixed s -> fixed (fst (react s)).
    Proof. apply react_ind, fixed_nop. Qed.

    Lemma fixed_recv fuel s t : fixed s -> fixed (fst (recv_transfer fuel s t)).
    Proof.
      intros H. unfold Node.recv_transfer. destruct (_ && _ && _).
      - destruct (find_request t (n_requests s)) as [k|]; auto.
        destruct (dget key_eqb (n_callbacks s) k) as [[r ev]|]; auto.
        fold (called s r ev t).
        assert (H1 : fixed (called s r ev t)) by (unfold called; destruct (cancel ev (n_queue s)); exact H).
        apply fixed_react in H1. destruct (react (called s r ev t)) as [s2 [y|x]]; cbn [fst] in *; auto.
        destruct (negb _); auto. destruct (negb _); auto.
      - destruct (_ || _ || _); auto. apply call_handlers_ind; auto; [apply fixed_nop|apply fixed_respond].
    Qed.

    Lemma fixed_exec s e q now : fixed s -> n_queue s = e :: q -> fixed (fst (nexec e now (npop s))).
    Proof.
      intros H Eq. unfold Node.nexec. destruct (ev_act e).
      - destruct (anonymous _); auto.
        match goal with |- context [broadcast ?s1 ?d ?v ?p ?c0] =>
          change (broadcast s1 d v p c0) with (apply_nop s1 (NBroadcast d v p c0)) end. now apply fixed_nop.
      - match goal with |- context [react ?s1] => pose proof (fixed_react s1 H) as H1; destruct (react s1) end. exact H1.
      - match goal with |- context [react ?s1] => pose proof (fixed_react s1 H) as H1; destruct (react s1) end. exact H1.
      - match goal with |- context [react ?s1] => pose proof (fixed_react s1 H) as H1; destruct (react s1) end. exact H1.
    Qed.
  End Fixed.

  Lemma frame_effect fuel s x f : let s' := fst (recv_frame fuel s x f) in
    n_catch s' = n_catch s /\
    n_manager s' = if x then fst (receive_frame (n_manager s) f (clk (n_reads s))) else n_manager s.
  Proof.
    cbv zeta. unfold Node.recv_frame. destruct x; cbn [negb]; [|auto]. cbn [nread].
    set (s1 := set_reads s (S (n_reads s))). change (n_manager s1) with (n_manager s).
    destruct (receive_frame (n_manager s) f (clk (n_reads s))) as [m [[|f0 fs]|]] eqn:E; auto.
    destruct (from_frames types (f0 :: fs)); auto.
    destruct (fixed_recv m (n_catch s) fuel (set_manager s1 m) a) as [A B]; [split; reflexivity|]. auto.
  Qed.

  (** The reassembly state is that of the frames heard. *)
  Lemma manager_history fuel ins : forall s arr0, n_manager s = fst (feed new_manager arr0) ->
    exists arr, map fst arr = heard ins /\
      n_manager (node_history fuel s ins) = fst (feed new_manager (arr0 ++ arr)) /\
      n_catch (node_history fuel s ins) = n_catch s.
  Proof.
    unfold Node.node_history. induction ins as [|i ins IH]; cbn [fold_left]; intros s arr0 H.
    { exists []. rewrite app_nil_r. auto. }
    assert (Hsame : forall s', fixed (n_manager s) (n_catch s) s' -> heard (i :: ins) = heard ins ->
      exists arr, map fst arr = heard (i :: ins) /\
        n_manager (node_history fuel s' ins) = fst (feed new_manager (arr0 ++ arr)) /\
        n_catch (node_history fuel s' ins) = n_catch s).
    { intros s' [E1 E2] Eh. rewrite Eh. destruct (IH s' arr0) as (arr & A & B & D); [congruence|].
      exists arr. split; auto. split; auto. unfold Node.node_history. congruence. }
    destruct i; cbn [apply_input]; try (apply Hsame; [|reflexivity]).
    - apply fixed_nop. split; reflexivity.
    - destruct (frame_effect fuel s extended f) as [E1 E2]. destruct extended.
      + destruct (IH (fst (recv_frame fuel s true f)) (arr0 ++ [(f, clk (n_reads s))])) as (arr & A & B & D).
        { rewrite E2, feed_app, <- H. symmetry. apply feed_one. }
        exists ((f, clk (n_reads s)) :: arr). split; [cbn; now rewrite A|]. split.
        * rewrite B, <- app_assoc. reflexivity.
        * congruence.
      + apply Hsame; [split; auto|reflexivity].
    - apply fixed_recv. split; reflexivity.
    - apply npoll_ind; [auto| |split; reflexivity]. intros; eapply fixed_exec; eauto.
    - split; reflexivity.
  Qed.

  (** Handlers that do not change the handler list are called exactly. *)
  Lemma dispatch_exact fuel :
    (forall l op c, In (op, c) (fst (beh l)) -> not_removing op /\ not_adding op) ->
    forall s o i t, n_catch s = true -> (n_cur s < length (n_lists s))%nat -> (o < length (n_lists s))%nat ->
    (i <= length (handler_list s o) < i + fuel)%nat ->
    handled (n_log (fst (call_handlers fuel s o i t))) = handled (n_log s) ++
      map (fun hd => (hd, t)) (filter (fun hd => accepts hd t) (skipn i (handler_list s o))).
  Proof.
    intros Hok. induction fuel as [|fuel IH]; cbn [Node.call_handlers]; intros s o i t Hca Hc Ho Hf; [lia|].
    destruct (nth_error (handler_list s o) i) as [hd|] eqn:En.
    2:{ apply nth_error_None in En. rewrite skipn_all2 by lia. cbn. now rewrite app_nil_r. }
    assert (Hi : (S i <= length (handler_list s o))%nat) by (apply nth_error_Some; congruence).
    rewrite (skipn_nth _ _ _ En). cbn [filter].
    destruct (accepts hd t) eqn:Ea; [|apply IH; auto; lia].
    destruct (keeping_all_call clk beh drv second s hd t Hok Hc) as (A & B & D & E).
    pose proof (handled_call clk beh drv second s hd t) as Hh.
    assert (G : handled (n_log (fst (call_handlers fuel (fst (call_handler s hd t)) o (S i) t))) =
      handled (n_log s) ++ map (fun hd => (hd, t)) (hd :: filter (fun hd => accepts hd t) (skipn (S i) (handler_list s o)))).
    { rewrite IH; auto; [|congruence|lia|rewrite E by auto; lia]. rewrite Hh, E by auto. rewrite <- app_assoc. reflexivity. }
    destruct (call_handler s hd t) as [s1 [x|]]; cbn [fst] in *; auto. now rewrite A, Hca.
  Qed.

  Variables (id : option N) (canfd : bool) (interval : Z) (info : typeid) (fuel : nat).
  Notation after := (started clk beh drv status status_dt types second id canfd true interval info fuel).

  Lemma heard_app a b : heard (a ++ b) = heard a ++ heard b.
  Proof. unfold heard. now rewrite frames_in_app, filter_app, map_app. Qed.

  (** A message, or a request to this node, that was heard completely is
      given to every handler for it. *)
  Lemma transfer_reaches ins sd fs pre f earlier : removes_none beh -> adds_none beh ->
    proper types sd -> sent sd fs -> Forall2 same_frame fs (pre ++ [f]) ->
    (let h := s_header sd in h_service h = false \/ h_request h = true /\ h_dest h = n_id (after ins)) ->
    filter (has_key (sending_key sd)) (heard ins) = earlier ++ pre ->
    (length (handler_list (after ins) (n_cur (after ins))) < fuel)%nat ->
    exists r, faithful sd r /\
      handled (n_log (after (ins ++ [IFrame true f]))) = handled (n_log (after ins)) ++
        map (fun hd => (hd, r)) (filter (fun hd => accepts hd r) (handler_list (after ins) (n_cur (after ins)))).
  Proof.
    intros Hr Ha Hp Hs Hsame Hdest Hh Hfuel.
    destruct (sent_received types sd Hp) as (fs0 & Hs0 & Hrec). rewrite <- (sent_det _ _ _ Hs Hs0) in Hrec. clear fs0 Hs0.
    destruct (Hrec _ Hsame) as (r & Hff & Hfa & _).
    exists r. split; auto.
    assert (Hone : one_transfer (sending_key sd) (pre ++ [f])).
    { destruct (sent_carries types sd fs Hp Hs) as [body Hc].
      apply (carries_one_transfer _ (s_canfd sd) _ body). eapply carries_same; eassumption. }
    set (s := after ins) in *.
    destruct (manager_history fuel ins (new_node clk id canfd true interval info) []) as (arr & Harr & Hm & Hcatch); [reflexivity|].
    change (node_history fuel (new_node clk id canfd true interval info) ins) with s in Hm, Hcatch. cbn [app] in Hm.
    rewrite after_app. fold s. cbn [Node.node_history fold_left apply_input].
    assert (Hk : transfer_key f = sending_key sd).
    { clear -Hp Hs Hsame. destruct (sent_carries types sd fs Hp Hs) as [body Hc].
      pose proof (carries_one_transfer _ _ _ _ _ (carries_same _ _ _ _ _ _ Hc Hsame)) as Ho.
      destruct Ho as [_ Ho]. apply (Ho (length pre) f). rewrite nth_error_app2, Nat.sub_diag by lia. reflexivity. }
    unfold Node.recv_frame. cbn [negb nread]. set (s1 := set_reads s (S (n_reads s))).
    change (n_manager s1) with (n_manager s). rewrite Hm.
    assert (Hdel : snd (receive_frame (fst (feed new_manager arr)) f (clk (n_reads s))) = Some (pre ++ [f])).
    { apply receive_exact. rewrite Hk. split; auto. exists earlier. unfold frames_with. rewrite Harr, Hh, app_assoc. reflexivity. }
    destruct (receive_frame (fst (feed new_manager arr)) f (clk (n_reads s))) as [m d]. cbn [snd] in Hdel. subst d.
    destruct (pre ++ [f]) as [|f0 rest] eqn:Epre; [destruct pre; discriminate|].
    rewrite Hff. set (s2 := set_manager s1 m).
    assert (Hrt : recv_transfer fuel s2 r = call_handlers fuel s2 (n_cur s2) 0 r).
    { unfold Node.recv_transfer. rewrite (f_header _ _ Hfa). change (n_id s2) with (n_id s).
      destruct Hdest as [->|[-> E]]; [reflexivity|]. rewrite E.
      assert (Eo : optN_eqb (n_id s) (n_id s) = true) by (apply optN_eqb_spec; reflexivity). rewrite Eo.
      rewrite andb_false_r. cbn [andb]. rewrite !orb_true_r. reflexivity. }
    rewrite Hrt. rewrite dispatch_exact; auto.
    - intros l op c Hi. split; [exact (Hr l op c Hi)|exact (Ha l op c Hi)].
    - cbn. apply cur_history. cbn. lia.
    - cbn. apply cur_history. cbn. lia.
    - change (0 <= length (handler_list s (n_cur s)) < 0 + fuel)%nat. lia.
  Qed.
End Net.

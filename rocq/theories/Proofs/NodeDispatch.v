(** Handlers, replies, priorities and [spin]. *)
From Verif.Base Require Import Prelude Bits.
From Verif.Model Require Import Types Codec MsgId Frames TransferManager Sched Node.
From Verif.Spec Require Import NodeSpec MsgIdSpec FrameSpec.
From Verif.Proofs Require Import ManagerFacts SchedFacts MsgIdFacts NodeFacts RequestFacts NodeRequests.
Local Open Scope Z_scope.

Lemma handled_app l1 l2 : handled (l1 ++ l2) = handled l1 ++ handled l2.
Proof. induction l1 as [|o l1 IH]; cbn; auto. destruct o; cbn; congruence. Qed.

Lemma update_list_length s i l : (i < length (n_lists s))%nat -> length (update_list s i l) = length (n_lists s).
Proof. intros H. unfold update_list. rewrite app_length, firstn_length. cbn [length]. rewrite skipn_length. lia. Qed.

Lemma update_list_nth s i l o : (i < length (n_lists s))%nat ->
  nth o (update_list s i l) [] = if Nat.eqb o i then l else handler_list s o.
Proof.
  intros H. unfold update_list, handler_list.
  assert (Hl : length (firstn i (n_lists s)) = i) by (rewrite firstn_length; lia).
  destruct (Nat.eqb_spec o i) as [->|Hne].
  - rewrite app_nth2 by lia. rewrite Hl, Nat.sub_diag. reflexivity.
  - destruct (Nat.lt_ge_cases o i) as [L|L].
    + rewrite app_nth1 by lia. rewrite <- (firstn_skipn i (n_lists s)) at 2. rewrite app_nth1; auto. lia.
    + rewrite app_nth2 by lia. rewrite Hl. destruct (o - i)%nat as [|d] eqn:Ed; [lia|]. cbn [nth].
      rewrite <- (firstn_skipn (S i) (n_lists s)) at 2.
      rewrite app_nth2; rewrite firstn_length, Nat.min_l by lia; [|lia]. f_equal. lia.
Qed.

Lemma filter_skipn_app {A} (f : A -> bool) i l l' : (i <= length l)%nat ->
  filter f (skipn i (l ++ l')) = filter f (skipn i l) ++ filter f l'.
Proof.
  intros H. rewrite skipn_app, filter_app. replace (i - length l)%nat with 0%nat by lia. reflexivity.
Qed.

Section Dispatch.
  Variable clk : nat -> Z.
  Variable beh : list nobs -> list (nop * bool) * outcome.
  Variable drv : list nobs -> list frame -> option exn.
  Variable status : list nobs -> value.
  Variable status_dt : datatype.
  Variable types : datatypes.
  Variable second : Z.

  Notation apply_nop := (apply_nop clk drv second).
  Notation apply_nops := (apply_nops clk drv second).
  Notation react := (react clk beh drv second).
  Notation call_handler := (call_handler clk beh drv second).
  Notation call_handlers := (call_handlers clk beh drv second).
  Notation recv_transfer := (recv_transfer clk beh drv second).
  Notation recv_frame := (recv_frame clk beh drv types second).
  Notation nexec := (nexec clk beh drv status status_dt second).
  Notation npoll := (npoll clk beh drv status status_dt second).
  Notation node_history := (node_history clk beh drv status status_dt types second).
  Notation request := (request clk drv second).
  Notation broadcast := (broadcast drv).
  Notation respond := (respond drv).

  (** ** Operations do not call handlers *)

  Lemma handled_nop h s op : handled (n_log s) = h -> handled (n_log (fst (apply_nop s op))) = h.
  Proof.
    intros <-. assert (Ho : forall o, (forall hd t, o <> OHandled hd t) -> handled (n_log s ++ [o]) = handled (n_log s)).
    { intros o H. rewrite handled_app. destruct o; cbn; try apply app_nil_r. exfalso. eapply H; eauto. }
    destruct op; cbn [Node.apply_nop]; auto.
    - unfold Node.request. destruct (anonymous s); auto. cbn [next_transfer_id].
      destruct (send _ _ _ _ _ _ _ _) as [s' r] eqn:E. apply send_shape in E.
      destruct E as (fs & err & -> & _ & Hr). destruct r as [t|x0]; cbn; [|apply Ho; discriminate].
      destruct (message_id (tx_header t)) as [id|x0]; cbn; [|apply Ho; discriminate].
      rewrite handled_app. cbn. rewrite app_nil_r. apply Ho. discriminate.
    - unfold Node.broadcast. destruct (anonymous s); auto. cbn [next_transfer_id].
      destruct (send _ _ _ _ _ _ _ _) as [s' r] eqn:E. apply send_shape in E.
      destruct E as (fs & err & -> & _ & Hr). destruct r; cbn; apply Ho; discriminate.
    - unfold Node.respond. destruct (anonymous s); auto.
      destruct (send _ _ _ _ _ _ _ _) as [s' r] eqn:E. apply send_shape in E.
      destruct E as (fs & err & -> & _ & Hr). destruct r; cbn; apply Ho; discriminate.
    - destruct (dget Nat.eqb (n_holders s) h) as [ev|]; auto. destruct (cancel ev (n_queue s)); auto.
    - destruct (remove_entry _ _); auto.
    - unfold set_node_id. destruct (anonymous s); auto. destruct (_ && _); auto. cbn. apply Ho. discriminate.
  Qed.

  Lemma handled_react s : handled (n_log (fst (react s))) = handled (n_log s).
  Proof. apply (react_ind clk beh drv second (fun s' => handled (n_log s') = handled (n_log s))); auto. intros; now apply handled_nop. Qed.

  Lemma handled_respond s dt v dest tid prio canfd :
    handled (n_log (fst (respond s dt v dest tid prio canfd))) = handled (n_log s).
  Proof.
    unfold Node.respond. destruct (anonymous s); auto.
    destruct (send _ _ _ _ _ _ _ _) as [s' r] eqn:E. apply send_shape in E.
    destruct E as (fs & err & -> & _ & Hr). destruct r; cbn; rewrite handled_app; apply app_nil_r.
  Qed.

  Lemma handled_call s hd t : handled (n_log (fst (call_handler s hd t))) = handled (n_log s) ++ [(hd, t)].
  Proof.
    unfold Node.call_handler. pose proof (handled_react (see s (OHandled hd t))) as H.
    cbn [n_log see] in H. rewrite handled_app in H. cbn [handled] in H.
    destruct (react (see s (OHandled hd t))) as [s1 [result|x]]; cbn [fst] in *; auto.
    destruct (_ && _).
    - destruct (negb _); auto. destruct result as [[dt v]|]; auto. now rewrite handled_respond.
    - destruct result; auto.
  Qed.

  Lemma handled_loop fuel : forall s o i t, exists hs,
    handled (n_log (fst (call_handlers fuel s o i t))) = handled (n_log s) ++ hs /\
    Forall (fun p => snd p = t /\ accepts (fst p) t = true) hs.
  Proof.
    induction fuel as [|fuel IH]; cbn [Node.call_handlers]; intros s o i t.
    { exists []. now rewrite app_nil_r. }
    destruct (nth_error (handler_list s o) i) as [hd|]; [|exists []; now rewrite app_nil_r].
    destruct (accepts hd t) eqn:Ea; [|apply IH].
    pose proof (handled_call s hd t) as H.
    destruct (call_handler s hd t) as [s1 [x|]]; cbn [fst] in *.
    - destruct (n_catch s1).
      + destruct (IH s1 o (S i) t) as (hs & E & Hf). exists ((hd, t) :: hs). split.
        * rewrite E, H, <- app_assoc. reflexivity.
        * constructor; auto.
      + exists [(hd, t)]. split; auto.
    - destruct (IH s1 o (S i) t) as (hs & E & Hf). exists ((hd, t) :: hs). split.
      * rewrite E, H, <- app_assoc. reflexivity.
      * constructor; auto.
  Qed.

  Lemma typeid_eqb_spec a b : typeid_eqb a b = true <-> a = b.
  Proof.
    unfold typeid_eqb. destruct a as [a1 a2], b as [b1 b2]. cbn. rewrite andb_true_iff, N.eqb_eq, Bool.eqb_true_iff.
    split; [intros [-> ->]; auto|intros E; injection E; auto].
  Qed.

  (** C28: who is called. *)
  Lemma handlers_called fuel s t : exists hs,
    handled (n_log (fst (recv_transfer fuel s t))) = handled (n_log s) ++ hs /\
    forall hd t', In (hd, t') hs -> t' = t /\
      (forall ty, hd_type hd = Some ty -> ty = type_of t) /\
      (h_service (rx_header t) = true ->
         h_request (rx_header t) = true /\ h_dest (rx_header t) = n_id s \/
         h_request (rx_header t) = false /\ h_dest (rx_header t) <> n_id s /\
         exists sn, In sn (handler_list s (n_cur s)) /\ hd_sniff sn = true /\
                    hd_type sn = Some (type_of t)).
  Proof.
    assert (H0 : forall s', handled (n_log s') = handled (n_log s) -> exists hs,
      handled (n_log s') = handled (n_log s) ++ hs /\ hs = []).
    { intros s' E. exists []. now rewrite app_nil_r. }
    unfold Node.recv_transfer.
    destruct (h_service (rx_header t) && negb (h_request (rx_header t)) && optN_eqb (h_dest (rx_header t)) (n_id s)) eqn:E1.
    - assert (exists hs, handled (n_log (fst (match find_request t (n_requests s) with
      | None => (s, None)
      | Some k =>
          match dget key_eqb (n_callbacks s) k with
          | None => (s, Some KeyError)
          | Some (r, ev) =>
              match react (called s r ev t) with
              | (s, Err x) => (s, Some x)
              | (s, Ok _) =>
                  if negb (dmem key_eqb (n_requests s) k) then (s, Some KeyError)
                  else if negb (dmem key_eqb (n_callbacks s) k)
                  then (set_pending s (ddel key_eqb (n_requests s) k) (n_callbacks s), Some KeyError)
                  else (set_pending s (ddel key_eqb (n_requests s) k)
                                      (ddel key_eqb (n_callbacks s) k), None)
              end
          end
      end))) = handled (n_log s) ++ hs /\ hs = []) as (hs & E & ->).
      { destruct (find_request t (n_requests s)) as [k|]; [|now apply H0].
        destruct (dget key_eqb (n_callbacks s) k) as [[r ev]|]; [|now apply H0].
        pose proof (handled_react (called s r ev t)) as H.
        assert (Hc : handled (n_log (called s r ev t)) = handled (n_log s)).
        { unfold called. destruct (cancel ev (n_queue s)); cbn; rewrite handled_app; apply app_nil_r. }
        rewrite Hc in H. destruct (react (called s r ev t)) as [s2 [y|x]]; cbn [fst] in *; [|exact (H0 _ H)].
        destruct (dmem key_eqb (n_requests s2) k); cbn [negb]; [|exact (H0 _ H)].
        destruct (dmem key_eqb (n_callbacks s2) k); cbn [negb]; exact (H0 _ H). }
      exists []. split; [exact E|intros ? ? []].
    - destruct (negb (h_service (rx_header t)) || sniffing s t || optN_eqb (h_dest (rx_header t)) (n_id s)) eqn:E2.
      2:{ exists []. split; [now rewrite app_nil_r|intros ? ? []]. }
      destruct (handled_loop fuel s (n_cur s) 0 t) as (hs & E & Hf). exists hs. split; auto.
      intros hd t' Hin. rewrite Forall_forall in Hf. specialize (Hf _ Hin). cbn in Hf. destruct Hf as [-> Ha].
      split; auto. split.
      + intros ty Ety. unfold accepts in Ha. rewrite Ety in Ha. now apply typeid_eqb_spec in Ha.
      + intros Hs. rewrite Hs in E1, E2. cbn [negb andb orb] in E1, E2.
        destruct (h_request (rx_header t)) eqn:Er; cbn [negb andb orb] in E1.
        * left. split; auto. unfold sniffing in E2. rewrite Hs, Er in E2. cbn in E2.
          now apply optN_eqb_spec in E2.
        * right. split; auto. rewrite E1, orb_false_r in E2. split.
          { intros Ed. apply optN_eqb_spec in Ed. congruence. }
          unfold sniffing in E2. rewrite Hs, Er in E2. cbn in E2.
          apply existsb_exists in E2. destruct E2 as (sn & Hi & E2). apply andb_prop in E2. destruct E2 as [E2 E3].
          exists sn. split; auto. split; auto. unfold opttype_eqb in E2.
          destruct (hd_type sn) as [ty|]; [|discriminate]. apply typeid_eqb_spec in E2. congruence.
  Qed.

  (** C28: the reply. *)
  Lemma reply s hd ty t s1 dt v : hd_type hd = Some ty -> snd ty = true -> hd_sniff hd = false ->
    h_request (rx_header t) = true -> react (see s (OHandled hd t)) = (s1, Ok (Some (dt, v))) ->
    anonymous s1 = false ->
    exists fs err, call_handler s hd t =
      (see s1 (OSend None (Header (h_priority (rx_header t)) true false (n_id s1)
                                  (h_source (rx_header t)) (dt_id dt) None) (rx_tid t) fs err), err) /\
      sent_fine (Header (h_priority (rx_header t)) true false (n_id s1)
                        (h_source (rx_header t)) (dt_id dt) None) (rx_tid t) fs err.
  Proof.
    intros Ety Hk Hs Hr Er Ha. unfold Node.call_handler. rewrite Ety. destruct ty as [d k]. cbn in Hk. subst k.
    rewrite Hs, Hr, Er. cbn [andb negb]. unfold Node.respond. rewrite Ha.
    destruct (send _ _ _ _ _ _ _ _) as [s' r] eqn:E. apply send_shape in E.
    destruct E as (fs & err & -> & Hf & He). exists fs, err. unfold sent_header in *. cbn in *. split; auto.
    destruct r; [destruct He as [-> _]|rewrite He]; reflexivity.
  Qed.

  Lemma no_reply s hd ty t : hd_type hd = Some ty -> snd ty = true -> hd_sniff hd = false ->
    h_request (rx_header t) = false ->
    fst (call_handler s hd t) = fst (react (see s (OHandled hd t))).
  Proof.
    intros Ety Hk Hs Hr. unfold Node.call_handler. rewrite Ety. destruct ty as [d k]. cbn in Hk. subst k.
    rewrite Hs, Hr. cbn [andb negb]. destruct (react _) as [s1 [result|x]]; reflexivity.
  Qed.

  (** ** C29 *)

  Definition keeping (s0 s : node) : Prop :=
    (n_hds s0 <= n_hds s)%nat /\ n_catch s = n_catch s0 /\ (n_cur s < length (n_lists s))%nat /\
    (length (n_lists s0) <= length (n_lists s))%nat /\
    forall o, (o < length (n_lists s0))%nat -> exists extra,
      handler_list s o = handler_list s0 o ++ extra /\ Forall (fun hd => (n_hds s0 <= hd_id hd)%nat) extra.

  Definition keeping_all (s0 s : node) : Prop :=
    n_catch s = n_catch s0 /\ (n_cur s < length (n_lists s))%nat /\
    (length (n_lists s0) <= length (n_lists s))%nat /\
    forall o, (o < length (n_lists s0))%nat -> handler_list s o = handler_list s0 o.

  Lemma keeping_refl s : (n_cur s < length (n_lists s))%nat -> keeping s s.
  Proof.
    intros H. repeat split; auto. intros o Ho. exists []. rewrite app_nil_r. auto.
  Qed.

  Lemma keeping_same s0 s s' : keeping s0 s -> n_hds s' = n_hds s -> n_catch s' = n_catch s -> n_cur s' = n_cur s ->
    n_lists s' = n_lists s -> keeping s0 s'.
  Proof.
    intros (A & B & D & E & F) E1 E2 E3 E4. unfold keeping. rewrite E1, E2, E3, E4. repeat split; auto.
    intros o Ho. unfold handler_list. rewrite E4. exact (F o Ho).
  Qed.

  (** What an operation does to the handler lists. *)
  Lemma nop_lists s op : match op with NAddHandler _ _ | NRemoveHandler _ | NRemoveHandlers _ => False | _ => True end ->
    let s' := fst (apply_nop s op) in
    n_hds s' = n_hds s /\ n_catch s' = n_catch s /\ n_cur s' = n_cur s /\ n_lists s' = n_lists s.
  Proof.
    intros Hop. destruct op; cbn [Node.apply_nop] in *; try tauto; cbn; auto.
    - unfold Node.request. destruct (anonymous s); auto. cbn [next_transfer_id].
      destruct (send _ _ _ _ _ _ _ _) as [s' r] eqn:E. apply send_shape in E.
      destruct E as (fs & err & -> & _ & Hr). destruct r as [t|x0]; cbn; auto.
      destruct (message_id (tx_header t)) as [id|x0]; cbn; auto.
    - unfold Node.broadcast. destruct (anonymous s); auto. cbn [next_transfer_id].
      destruct (send _ _ _ _ _ _ _ _) as [s' r] eqn:E. apply send_shape in E.
      destruct E as (fs & err & -> & _ & Hr). destruct r; cbn; auto.
    - unfold Node.respond. destruct (anonymous s); auto.
      destruct (send _ _ _ _ _ _ _ _) as [s' r] eqn:E. apply send_shape in E.
      destruct E as (fs & err & -> & _ & Hr). destruct r; cbn; auto.
    - destruct (dget Nat.eqb (n_holders s) h) as [ev|]; auto. destruct (cancel ev (n_queue s)); auto.
    - unfold set_node_id. destruct (anonymous s); auto. destruct (_ && _); auto.
  Qed.

  Definition not_removing (op : nop) : Prop := match op with NRemoveHandler _ => False | _ => True end.
  Definition not_adding (op : nop) : Prop := match op with NAddHandler _ _ => False | _ => True end.

  Lemma keeping_nop s0 s op : not_removing op -> keeping s0 s -> keeping s0 (fst (apply_nop s op)).
  Proof.
    intros Hop H. pose proof (nop_lists s op) as Hl.
    destruct op; try (destruct Hop; fail); try (destruct (Hl I) as (A & B & D & E); eapply keeping_same; eauto; fail);
      clear Hl; destruct H as (A & B & D & E & F); cbn; unfold keeping; cbn.
    - rewrite update_list_length by auto. split; [lia|]. split; [auto|]. split; [auto|]. split; [auto|].
      intros o Ho. destruct (F o Ho) as (ex & E1 & E2).
      pose proof (update_list_nth s (n_cur s) (handler_list s (n_cur s) ++
        [Handler (n_hds s) ty (sniff && match ty with Some (_, k) => k | None => false end)]) o D) as Hn.
      destruct (Nat.eqb_spec o (n_cur s)) as [Ec|Hne].
      + rewrite Ec in E1 at 1. exists (ex ++ [Handler (n_hds s) ty (sniff && match ty with Some (_, k) => k | None => false end)]).
        split; [|apply Forall_app; split; auto].
        etransitivity; [exact Hn|]. rewrite E1, <- app_assoc. reflexivity.
      + exists ex. split; auto. rewrite <- E1. exact Hn.
    - rewrite app_length. cbn. split; [auto|]. split; [auto|]. split; [lia|]. split; [lia|].
      intros o Ho. destruct (F o Ho) as (ex & E1 & E2). exists ex. split; auto.
      unfold handler_list at 1. cbn. rewrite app_nth1 by lia. exact E1.
  Qed.

  Lemma nops_ind_if (ok : nop -> Prop) (P : node -> Prop)
    (Pop : forall s op, ok op -> P s -> P (fst (apply_nop s op))) ops :
    (forall op c, In (op, c) ops -> ok op) -> forall s, P s -> P (fst (apply_nops s ops)).
  Proof.
    induction ops as [|[op c] ops IH]; cbn; intros Hok s Hs; auto.
    assert (H1 : P (fst (apply_nop s op))) by (apply Pop; eauto).
    assert (H2 : forall s, P s -> P (fst (apply_nops s ops))) by (apply IH; eauto).
    destruct (apply_nop s op) as [s1 [x|]]; cbn [fst] in *; auto.
    destruct c; auto.
  Qed.

  Lemma react_ind_if (ok : nop -> Prop) (P : node -> Prop)
    (Pop : forall s op, ok op -> P s -> P (fst (apply_nop s op)))
    (Hok : forall l op c, In (op, c) (fst (beh l)) -> ok op) s :
    P s -> P (fst (react s)).
  Proof.
    intros Hs. unfold Node.react. specialize (Hok (n_log s)). destruct (beh (n_log s)) as [ops out].
    pose proof (nops_ind_if ok P Pop ops Hok s Hs) as H.
    destruct (apply_nops s ops) as [s1 [x|]]; exact H.
  Qed.

  Lemma keeping_call s hd t : (forall l op c, In (op, c) (fst (beh l)) -> not_removing op) ->
    (n_cur s < length (n_lists s))%nat -> keeping s (fst (call_handler s hd t)).
  Proof.
    intros Hok Hc. unfold Node.call_handler.
    assert (H : keeping s (fst (react (see s (OHandled hd t))))).
    { apply (react_ind_if not_removing (keeping s)); auto.
      - intros; now apply keeping_nop.
      - eapply keeping_same; [now apply keeping_refl|reflexivity..]. }
    destruct (react (see s (OHandled hd t))) as [s1 [result|x]]; cbn [fst] in *; auto.
    assert (Hr : forall dt v dest tid prio canfd, keeping s (fst (respond s1 dt v dest tid prio canfd))).
    { intros. unfold Node.respond. destruct (anonymous s1); auto.
      destruct (send _ _ _ _ _ _ _ _) as [s' r] eqn:E. apply send_shape in E.
      destruct E as (fs & err & -> & _ & He). destruct r; (eapply keeping_same; [exact H|reflexivity..]). }
    destruct (_ && _).
    - destruct (negb _); auto. destruct result as [[dt v]|]; auto.
    - destruct result; auto.
  Qed.

  Lemma skipn_nth {A} (l : list A) i x : nth_error l i = Some x -> skipn i l = x :: skipn (S i) l.
  Proof.
    revert i. induction l as [|y l IH]; intros [|i] H; try discriminate.
    - cbn in H. injection H as ->. reflexivity.
    - cbn in H |- *. apply IH in H. exact H.
  Qed.

  Lemma dispatch_all fuel : (forall l op c, In (op, c) (fst (beh l)) -> not_removing op) ->
    forall s o i t s', call_handlers fuel s o i t = (s', None) ->
    (n_cur s < length (n_lists s))%nat -> (o < length (n_lists s))%nat ->
    exists extra,
      handled (n_log s') = handled (n_log s) ++
        map (fun hd => (hd, t)) (filter (fun hd => accepts hd t) (skipn i (handler_list s o)) ++ extra) /\
      Forall (fun hd => (n_hds s <= hd_id hd)%nat) extra.
  Proof.
    intros Hok. induction fuel as [|fuel IH]; cbn [Node.call_handlers]; intros s o i t s' H Hc Ho; [discriminate|].
    destruct (nth_error (handler_list s o) i) as [hd|] eqn:En.
    2:{ injection H as <-. exists []. rewrite skipn_all2 by now apply nth_error_None.
        cbn. rewrite app_nil_r. auto. }
    rewrite (skipn_nth _ _ _ En). cbn [filter].
    assert (Hi : (S i <= length (handler_list s o))%nat) by (apply nth_error_Some; congruence).
    destruct (accepts hd t) eqn:Ea; [|eauto].
    pose proof (keeping_call s hd t Hok Hc) as Hk. pose proof (handled_call s hd t) as Hh.
    assert (Hgo : forall s1, keeping s s1 -> handled (n_log s1) = handled (n_log s) ++ [(hd, t)] ->
      call_handlers fuel s1 o (S i) t = (s', None) -> exists extra,
      handled (n_log s') = handled (n_log s) ++
        map (fun hd => (hd, t)) ((hd :: filter (fun hd => accepts hd t) (skipn (S i) (handler_list s o))) ++ extra) /\
      Forall (fun hd => (n_hds s <= hd_id hd)%nat) extra).
    { intros s1 (A & _ & D & E & F) Hh1 Hcall. destruct (F o Ho) as (ex1 & E1 & E2).
      assert (Ho1 : (o < length (n_lists s1))%nat) by lia.
      destruct (IH s1 o (S i) t s' Hcall D Ho1) as (ex2 & E3 & E4).
      exists (filter (fun hd => accepts hd t) ex1 ++ ex2). split.
      - rewrite E3, Hh1, <- app_assoc, E1, filter_skipn_app by auto. cbn. do 2 f_equal.
        rewrite <- app_assoc. reflexivity.
      - apply Forall_app. split.
        + rewrite Forall_forall in *. intros x Hx. apply filter_In in Hx. apply E2. tauto.
        + eapply Forall_impl; [|exact E4]. cbn. lia. }
    destruct (call_handler s hd t) as [s1 [x|]]; cbn [fst] in *; [|eauto].
    destruct (n_catch s1); [eauto|discriminate].
  Qed.

  (** With exceptions caught and nothing added, the loop ends. *)
  Lemma keeping_all_same s0 s s' : keeping_all s0 s -> n_catch s' = n_catch s -> n_cur s' = n_cur s ->
    n_lists s' = n_lists s -> keeping_all s0 s'.
  Proof.
    intros (B & D & E & F) E2 E3 E4. unfold keeping_all. rewrite E2, E3, E4. repeat split; auto.
    intros o Ho. unfold handler_list at 1. rewrite E4. exact (F o Ho).
  Qed.

  Lemma keeping_all_nop s0 s op : not_removing op /\ not_adding op -> keeping_all s0 s ->
    keeping_all s0 (fst (apply_nop s op)).
  Proof.
    intros [H1 H2] H. pose proof (nop_lists s op) as Hl.
    destruct op; try (destruct H1; fail); try (destruct H2; fail);
      try (destruct (Hl I) as (A & B & D & E); eapply keeping_all_same; eauto; fail).
    clear Hl. destruct H as (B & D & E & F). cbn. unfold keeping_all. cbn.
    rewrite app_length. cbn. split; [auto|]. split; [lia|]. split; [lia|].
    intros o Ho. unfold handler_list at 1. cbn. rewrite app_nth1 by lia. exact (F o Ho).
  Qed.

  Lemma keeping_all_call s hd t : (forall l op c, In (op, c) (fst (beh l)) -> not_removing op /\ not_adding op) ->
    (n_cur s < length (n_lists s))%nat -> keeping_all s (fst (call_handler s hd t)).
  Proof.
    intros Hok Hc. unfold Node.call_handler.
    assert (H0 : keeping_all s s) by (repeat split; auto).
    assert (H : keeping_all s (fst (react (see s (OHandled hd t))))).
    { apply (react_ind_if (fun op => not_removing op /\ not_adding op) (keeping_all s)); auto.
      - intros; now apply keeping_all_nop.
    }
    destruct (react (see s (OHandled hd t))) as [s1 [result|x]]; cbn [fst] in *; auto.
    assert (Hr : forall dt v dest tid prio canfd, keeping_all s (fst (respond s1 dt v dest tid prio canfd))).
    { intros. unfold Node.respond. destruct (anonymous s1); auto.
      destruct (send _ _ _ _ _ _ _ _) as [s' r] eqn:E. apply send_shape in E.
      destruct E as (fs & err & -> & _ & He). destruct r; (eapply keeping_all_same; [exact H|reflexivity..]). }
    destruct (_ && _).
    - destruct (negb _); auto. destruct result as [[dt v]|]; auto.
    - destruct result; auto.
  Qed.

  Lemma dispatch_ends fuel :
    (forall l op c, In (op, c) (fst (beh l)) -> not_removing op /\ not_adding op) ->
    forall s o i t, n_catch s = true -> (n_cur s < length (n_lists s))%nat -> (o < length (n_lists s))%nat ->
    (i <= length (handler_list s o) < i + fuel)%nat -> snd (call_handlers fuel s o i t) = None.
  Proof.
    intros Hok. induction fuel as [|fuel IH]; cbn [Node.call_handlers]; intros s o i t Hca Hc Ho Hf; [lia|].
    destruct (nth_error (handler_list s o) i) as [hd|] eqn:En; auto.
    assert (Hi : (S i <= length (handler_list s o))%nat) by (apply nth_error_Some; congruence).
    destruct (accepts hd t) eqn:Ea; [|apply IH; auto; lia].
    destruct (keeping_all_call s hd t Hok Hc) as (A & B & D & E).
    assert (G : snd (call_handlers fuel (fst (call_handler s hd t)) o (S i) t) = None).
    { apply IH; auto; [congruence|lia|]. rewrite E by auto. lia. }
    destruct (call_handler s hd t) as [s1 [x|]]; cbn [fst] in *; auto. now rewrite A, Hca.
  Qed.

  (** The current list is always one of the lists. *)
  Lemma cur_nop s op : (n_cur s < length (n_lists s))%nat ->
    (n_cur (fst (apply_nop s op)) < length (n_lists (fst (apply_nop s op))))%nat.
  Proof.
    intros H. pose proof (nop_lists s op) as Hl.
    destruct op; try (destruct (Hl I) as (A & B & D & E); rewrite D, E; exact H); clear Hl; cbn.
    - now rewrite update_list_length.
    - destruct (remove_entry _ _); cbn; auto. now rewrite update_list_length.
    - rewrite app_length. cbn. lia.
  Qed.

  Lemma cur_history fuel s ins : (n_cur s < length (n_lists s))%nat ->
    let s' := node_history fuel s ins in (n_cur s' < length (n_lists s'))%nat.
  Proof.
    cbv zeta. set (P := fun s => (n_cur s < length (n_lists s))%nat).
    assert (Hresp : forall s dt v dest tid prio canfd, P s -> P (fst (respond s dt v dest tid prio canfd))).
    { intros s0 dt v dest tid prio canfd H. unfold Node.respond. destruct (anonymous s0); auto.
      destruct (send _ _ _ _ _ _ _ _) as [s' r] eqn:E. apply send_shape in E.
      destruct E as (fs & err & -> & _ & He). destruct r; exact H. }
    assert (Hreact : forall s, P s -> P (fst (react s))) by (apply react_ind; apply cur_nop).
    change (P s -> P (node_history fuel s ins)). apply history_ind.
    - apply cur_nop.
    - intros s0 t H. unfold Node.recv_transfer. destruct (_ && _ && _).
      + destruct (find_request t (n_requests s0)) as [k|]; auto.
        destruct (dget key_eqb (n_callbacks s0) k) as [[r ev]|]; auto.
        fold (called s0 r ev t).
        assert (H1 : P (called s0 r ev t)) by (unfold called; destruct (cancel ev (n_queue s0)); exact H).
        apply Hreact in H1. destruct (react (called s0 r ev t)) as [s2 [y|x]]; cbn [fst] in *; auto.
        destruct (negb _); auto. destruct (negb _); auto.
      + destruct (_ || _ || _); auto. apply call_handlers_ind; auto. apply cur_nop.
    - auto.
    - auto.
    - intros s0 e q now H Eq _. unfold Node.nexec. destruct (ev_act e).
      + destruct (anonymous _); auto.
        match goal with |- context [broadcast ?s1 ?d ?v ?p ?c] =>
          change (broadcast s1 d v p c) with (apply_nop s1 (NBroadcast d v p c)) end. now apply cur_nop.
      + match goal with |- context [react ?s1] => pose proof (Hreact s1 H) as H1; destruct (react s1) end. exact H1.
      + match goal with |- context [react ?s1] => pose proof (Hreact s1 H) as H1; destruct (react s1) end. exact H1.
      + match goal with |- context [react ?s1] => pose proof (Hreact s1 H) as H1; destruct (react s1) end. exact H1.
  Qed.

  (** ** C33 *)

  Lemma priority_bits h id : (h_priority h < 32)%N -> (exists n, h_source h = Some n /\ 1 <= n < 128)%N ->
    h_discriminator h = None -> (h_service h = false -> h_request h = false /\ h_dest h = None) ->
    message_id h = Ok id -> (id / 2 ^ 24 = h_priority h)%N.
  Proof.
    intros Hp (n & Hn & Hr) Hd Hm Hid.
    assert (Hl : MsgIdSpec.legal h).
    { destruct h as [p sv rq src dst d disc]. cbn in *. subst src disc. unfold message_id in Hid. cbn in Hid.
      destruct sv.
      - destruct (d <=? 255)%N eqn:E1; [|discriminate]. cbn in Hid. destruct dst as [dst|]; [|discriminate].
        destruct ((1 <=? dst)%N && (dst <=? 127)%N) eqn:E2; [|discriminate]. constructor; lia.
      - destruct (Hm eq_refl) as [-> ->]. destruct (N.eqb_spec n 0); [lia|].
        destruct (d <=? 65535)%N eqn:E1; [|discriminate]. constructor; lia. }
    rewrite (message_id_layout h Hl) in Hid. injection Hid as <-. symmetry.
    assert (Hle : (h_priority h * 2 ^ 24 <= can_id h)%N) by (unfold can_id; cbv zeta; lia).
    apply N.div_unique with (r := (can_id h - h_priority h * 2 ^ 24)%N).
    - clear Hle. destruct Hl; unfold can_id; cbn in *; try destruct r; cbn;
        repeat match goal with |- context [N.eqb ?a ?b] => destruct (N.eqb_spec a b) end; cbn; lia.
    - change (2 ^ 24)%N with 16777216%N in *. lia.
  Qed.
End Dispatch.

(** Executions of a node: induction principles, transfer ids, node id. *)
From Verif.Base Require Import Prelude Bits.
From Verif.Model Require Import Types Codec MsgId Frames TransferManager Sched Node.
From Verif.Spec Require Import NodeSpec FrameSpec.
From Verif.Proofs Require Import ManagerFacts FrameFacts.
Local Open Scope Z_scope.

Section Facts.
  Variable clk : nat -> Z.
  Variable beh : list nobs -> list (nop * bool) * outcome.
  Variable drv : list nobs -> list frame -> option exn.
  Variable status : list nobs -> value.
  Variable status_dt : datatype.
  Variable types : datatypes.
  Variable second : Z.

  Notation apply_nop := (apply_nop clk drv second).
  Notation apply_nops := (apply_nops clk drv second).
  Notation react := (react clk beh drv second).
  Notation call_handler := (call_handler clk beh drv second).
  Notation call_handlers := (call_handlers clk beh drv second).
  Notation recv_transfer := (recv_transfer clk beh drv second).
  Notation recv_frame := (recv_frame clk beh drv types second).
  Notation nexec := (nexec clk beh drv status status_dt second).
  Notation npoll := (npoll clk beh drv status status_dt second).
  Notation node_history := (node_history clk beh drv status status_dt types second).
  Notation send := (send drv).
  Notation request := (request clk drv second).
  Notation broadcast := (broadcast drv).
  Notation respond := (respond drv).

  (** ** Sending *)

  Lemma send_frames_none log rest : forall sent fs,
    send_frames drv log sent rest = (fs, None) -> fs = sent ++ rest.
  Proof.
    induction rest as [|f rest IH]; cbn; intros sent fs H.
    - injection H as <-. now rewrite app_nil_r.
    - destruct (drv log sent); [discriminate|]. apply IH in H. now rewrite <- app_assoc in H.
  Qed.

  Definition sent_header (h : header) (dt : datatype) : header :=
    Header (h_priority h) (h_service h) (h_request h) (h_source h) (h_dest h)
           (dt_id dt) (h_discriminator h).

  Lemma send_frames_prefix log rest : forall sent fs err,
    send_frames drv log sent rest = (fs, err) -> exists more, sent ++ rest = fs ++ more /\ (err = None -> more = []).
  Proof.
    induction rest as [|f rest IH]; cbn; intros sent fs err H.
    - injection H as <- <-. exists []. auto.
    - destruct (drv log sent) as [x|].
      + injection H as <- <-. exists (f :: rest). split; auto. discriminate.
      + apply IH in H. rewrite <- app_assoc in H. exact H.
  Qed.

  (** The frames on the bus are the first ones of a well-formed sequence; all
      of it if nothing was raised. *)
  Definition sent_fine (h : header) (tid : N) (fs : list frame) (err : option exn) : Prop :=
    fs = [] /\ err <> None \/
    exists id fd body rest, message_id h = Ok id /\ carries id fd tid body (fs ++ rest) /\
      (err = None -> rest = []).

  Lemma send_shape s session h tid dt v canfd s' r : send s session h tid dt v canfd = (s', r) ->
    exists fs err, s' = see s (OSend session (sent_header h dt) tid fs err) /\
      sent_fine (sent_header h dt) tid fs err /\
      match r with
      | Ok t => err = None /\ tx_header t = sent_header h dt /\ tx_tid t = tid /\
                exists padded, to_frames t = Ok (fs, padded)
      | Err x => err = Some x
      end.
  Proof.
    unfold Node.send. set (fd := match canfd with Some b => b | None => n_canfd s end).
    fold (sent_header h dt). destruct (make_tx h tid dt v fd) as [t|x] eqn:Em.
    2:{ intros E; injection E as <- <-. exists [], (Some x). repeat split; auto. left. split; auto. discriminate. }
    destruct (to_frames t) as [[fs p]|x] eqn:Ef.
    2:{ intros E; injection E as <- <-. exists [], (Some x). repeat split; auto. left. split; auto. discriminate. }
    destruct (send_frames drv (n_log s) [] fs) as [fs' err] eqn:Es.
    intros E; injection E as <- <-. exists fs', err. split; auto.
    assert (Et : tx_header t = sent_header h dt /\ tx_tid t = tid).
    { unfold make_tx in Em. apply bind_ok in Em as (pl & Ep & Em). injection Em as <-. auto. }
    destruct Et as [Eh Etid]. split.
    - right. apply send_frames_prefix in Es. destruct Es as (rest & Es & Hrest). cbn in Es. subst fs.
      destruct (message_id (tx_header t)) as [id|x] eqn:Ei.
      2:{ rewrite (to_frames_error _ _ Ei) in Ef. discriminate. }
      destruct (to_frames_wf t id Ei) as (fs2 & padded & E2 & _ & H1 & H2).
      rewrite Ef in E2. injection E2 as E2 _. subst fs2.
      destruct (le_lt_dec (length (tx_payload t)) (capacity (tx_canfd t))) as [L|L].
      + destruct (H1 L) as [_ Hc]. rewrite Etid in Hc. rewrite Eh in Ei.
        exists id, (tx_canfd t), padded, rest. auto.
      + destruct (H2 L) as (_ & lo & hi & _ & _ & _ & Hc). rewrite Etid in Hc. rewrite Eh in Ei.
        exists id, (tx_canfd t), (lo :: hi :: padded), rest. auto.
    - destruct err; auto. apply send_frames_none in Es. cbn in Es. subst fs'. eauto.
  Qed.

  (** ** Properties of the node id, the transfer id counters and the history *)

  Definition anon (i : option N) : bool := match i with None => true | Some n => N.eqb n 0 end.

  Definition current (n : list (key * N)) (k : key) : N :=
    match dget key_eqb n k with Some t => t | None => 0%N end.

  Definition is_call (o : nobs) : Prop :=
    match o with
    | OHandled _ _ | OTask _ _ | OResponse _ _ | OTimeout _ _ | ORequest _ _ _ _ => True
    | _ => False
    end.

  Section Simple.
    Variable Q : option N -> list (key * N) -> list nobs -> Prop.
    Hypothesis Q_call : forall i n l o, is_call o -> Q i n l -> Q i n (l ++ [o]).
    Hypothesis Q_session : forall i n l k h fs err, anon i = false -> h_source h = i -> sent_fine h (current n k) fs err ->
      Q i n l -> Q i (dset key_eqb n k (N.land (current n k + 1) 0x1F))
                   (l ++ [OSend (Some k) h (current n k) fs err]).
    Hypothesis Q_reply : forall i n l h tid fs err, anon i = false -> h_source h = i -> sent_fine h tid fs err ->
      Q i n l -> Q i n (l ++ [OSend None h tid fs err]).
    Hypothesis Q_id : forall i n l v, anon i = true -> (1 <= v <= 127)%N ->
      Q i n l -> Q (Some v) n (l ++ [ONodeId v]).

    Definition Qs (s : node) : Prop := Q (n_id s) (n_next s) (n_log s).

    Lemma anonymous_anon s : anonymous s = anon (n_id s).
    Proof. reflexivity. Qed.

    Lemma Qs_broadcast s dt v prio canfd : Qs s -> Qs (fst (broadcast s dt v prio canfd)).
    Proof.
      intros H. unfold Node.broadcast. rewrite anonymous_anon.
      destruct (anon (n_id s)) eqn:Ea; auto. cbn [next_transfer_id].
      destruct (send _ _ _ _ _ _ _) as [s' r] eqn:E. apply send_shape in E.
      destruct E as (fs & err & -> & Hf & Hr). destruct r; cbn [fst]; unfold Qs; cbn; apply Q_session; auto.
    Qed.

    Lemma Qs_respond s dt v dest tid prio canfd : Qs s -> Qs (fst (respond s dt v dest tid prio canfd)).
    Proof.
      intros H. unfold Node.respond. rewrite anonymous_anon.
      destruct (anon (n_id s)) eqn:Ea; auto.
      destruct (send _ _ _ _ _ _ _) as [s' r] eqn:E. apply send_shape in E.
      destruct E as (fs & err & -> & Hf & Hr). destruct r; cbn [fst]; unfold Qs; cbn; apply Q_reply; auto.
    Qed.

    Lemma Qs_request s dt v dest prio timeout canfd : Qs s ->
      Qs (fst (request s dt v dest prio timeout canfd)).
    Proof.
      intros H. unfold Node.request. rewrite anonymous_anon.
      destruct (anon (n_id s)) eqn:Ea; auto. cbn [next_transfer_id].
      destruct (send _ _ _ _ _ _ _) as [s' r] eqn:E. apply send_shape in E.
      destruct E as (fs & err & -> & Hf & Hr). destruct r as [t|x].
      - destruct (message_id (tx_header t)) as [id|x] eqn:Ei; cbn [fst nread]; unfold Qs; cbn.
        + apply Q_call; [exact I|]. apply Q_session; auto.
        + apply Q_session; auto.
      - cbn [fst]; unfold Qs; cbn; apply Q_session; auto.
    Qed.

    Lemma Qs_nop s op : Qs s -> Qs (fst (apply_nop s op)).
    Proof.
      intros H. destruct op; cbn [Node.apply_nop].
      - now apply Qs_request.
      - now apply Qs_broadcast.
      - now apply Qs_respond.
      - exact H.
      - exact H.
      - destruct (dget Nat.eqb (n_holders s) h); auto. destruct (cancel _ _); auto.
      - exact H.
      - destruct (remove_entry _ _); auto.
      - exact H.
      - unfold set_node_id. rewrite anonymous_anon. destruct (anon (n_id s)) eqn:Ea; auto.
        destruct ((1 <=? v) && (v <=? 127)) eqn:Ev; auto. cbn [fst]. unfold Qs. cbn.
        eapply Q_id; eauto. lia.
      - exact H.
    Qed.
  End Simple.

  (** ** Induction over executions, for a property of states that is kept by
      each operation, each call and each step of the node itself. *)

  Lemma nops_ind (P : node -> Prop) (Pop : forall s op, P s -> P (fst (apply_nop s op))) ops :
    forall s, P s -> P (fst (apply_nops s ops)).
  Proof.
    induction ops as [|[op c] ops IH]; cbn; intros s Hs; auto.
    specialize (Pop s op Hs). destruct (apply_nop s op) as [s1 [x|]]; cbn [fst] in *; auto.
    destruct c; auto.
  Qed.

  Lemma react_ind (P : node -> Prop) (Pop : forall s op, P s -> P (fst (apply_nop s op))) s :
    P s -> P (fst (react s)).
  Proof.
    intros Hs. unfold Node.react. destruct (beh (n_log s)) as [ops out].
    pose proof (nops_ind P Pop ops s Hs) as H.
    destruct (apply_nops s ops) as [s1 [x|]]; exact H.
  Qed.

  Lemma call_handler_ind (P : node -> Prop)
    (Pop : forall s op, P s -> P (fst (apply_nop s op)))
    (Pcall : forall s hd t, P s -> P (see s (OHandled hd t)))
    (Prep : forall s dt v dest tid prio canfd, P s -> P (fst (respond s dt v dest tid prio canfd)))
    s hd t : P s -> P (fst (call_handler s hd t)).
  Proof.
    intros Hs. unfold Node.call_handler.
    pose proof (react_ind P Pop _ (Pcall s hd t Hs)) as H.
    destruct (react (see s (OHandled hd t))) as [s1 [result|x]]; cbn [fst] in *; auto.
    destruct (_ && _).
    - destruct (negb _); auto. destruct result as [[dt v]|]; auto.
    - destruct result; auto.
  Qed.

  Lemma call_handlers_ind (P : node -> Prop)
    (Pop : forall s op, P s -> P (fst (apply_nop s op)))
    (Pcall : forall s hd t, P s -> P (see s (OHandled hd t)))
    (Prep : forall s dt v dest tid prio canfd, P s -> P (fst (respond s dt v dest tid prio canfd)))
    fuel : forall s o i t, P s -> P (fst (call_handlers fuel s o i t)).
  Proof.
    induction fuel as [|fuel IH]; cbn; intros s o i t Hs; auto.
    destruct (nth_error (handler_list s o) i) as [hd|]; auto.
    destruct (accepts hd t); auto.
    pose proof (call_handler_ind P Pop Pcall Prep s hd t Hs) as H.
    destruct (call_handler s hd t) as [s1 [x|]]; cbn [fst] in *; auto.
    destruct (n_catch s1); auto.
  Qed.

  Lemma nrun_ind (P : node -> Prop)
    (Pread : forall s, P s -> P (snd (nread clk s)))
    (Pexec : forall s e q now, P s -> n_queue s = e :: q -> ev_time e <= now ->
       P (fst (nexec e now (npop s))))
    fuel : forall s, P s -> P (fst (run n_queue npop (nread clk) nexec fuel s)).
  Proof.
    induction fuel as [|fuel IH]; cbn [run]; intros s Hs; auto.
    destruct (n_queue s) as [|e q] eqn:Eq; auto.
    pose proof (Pread s Hs) as Hr. cbn [nread snd] in *. set (s1 := set_reads s _) in *.
    destruct (Z.ltb_spec (clk (n_reads s)) (ev_time e)); auto.
    pose proof (Pexec s1 e q (clk (n_reads s)) Hr Eq H) as He.
    destruct (nexec e (clk (n_reads s)) (npop s1)) as [s2 [x|]]; cbn [fst] in *; auto.
  Qed.

  Lemma npoll_ind (P : node -> Prop)
    (Pread : forall s, P s -> P (snd (nread clk s)))
    (Pexec : forall s e q now, P s -> n_queue s = e :: q -> ev_time e <= now ->
       P (fst (nexec e now (npop s))))
    fuel s : P s -> P (fst (npoll fuel s)).
  Proof.
    intros Hs. pose proof (nrun_ind P Pread Pexec fuel s Hs) as H. unfold Node.npoll.
    destruct (run n_queue npop (nread clk) nexec fuel s) as [s1 []]; cbn [fst] in *; auto;
      apply (Pread s1 H).
  Qed.

  Lemma history_ind (P : node -> Prop) fuel
    (Pop : forall s op, P s -> P (fst (apply_nop s op)))
    (Precv : forall s t, P s -> P (fst (recv_transfer fuel s t)))
    (Pman : forall s m, P s -> P (set_manager s m))
    (Pread : forall s, P s -> P (snd (nread clk s)))
    (Pexec : forall s e q now, P s -> n_queue s = e :: q -> ev_time e <= now ->
       P (fst (nexec e now (npop s)))) ins :
    forall s, P s -> P (node_history fuel s ins).
  Proof.
    unfold Node.node_history. induction ins as [|i ins IH]; cbn; intros s Hs; auto.
    apply IH. destruct i; cbn.
    - auto.
    - unfold Node.recv_frame. destruct extended; cbn [negb]; auto.
      pose proof (Pread s Hs) as Hr. cbn [nread snd] in *. set (s1 := set_reads s _) in *.
      destruct (receive_frame (n_manager s1) f (clk (n_reads s))) as [m [[|f0 fs]|]].
      + now apply Pman.
      + destruct (from_frames types (f0 :: fs)); [apply Precv|]; now apply Pman.
      + now apply Pman.
    - auto.
    - apply npoll_ind; auto.
    - exact (Pread s Hs).
  Qed.

  (** ** Histories *)
  Section SimpleHistory.
    Variable Q : option N -> list (key * N) -> list nobs -> Prop.
    Hypothesis Q_call : forall i n l o, is_call o -> Q i n l -> Q i n (l ++ [o]).
    Hypothesis Q_session : forall i n l k h fs err, anon i = false -> h_source h = i -> sent_fine h (current n k) fs err ->
      Q i n l -> Q i (dset key_eqb n k (N.land (current n k + 1) 0x1F))
                   (l ++ [OSend (Some k) h (current n k) fs err]).
    Hypothesis Q_reply : forall i n l h tid fs err, anon i = false -> h_source h = i -> sent_fine h tid fs err ->
      Q i n l -> Q i n (l ++ [OSend None h tid fs err]).
    Hypothesis Q_id : forall i n l v, anon i = true -> (1 <= v <= 127)%N ->
      Q i n l -> Q (Some v) n (l ++ [ONodeId v]).

    Lemma Qs_exec s e q now : Qs Q s -> n_queue s = e :: q -> Qs Q (fst (nexec e now (npop s))).
    Proof.
      intros H Eq. unfold Node.nexec.
      assert (Hr : forall s', Qs Q s' -> Qs Q (fst (react s'))).
      { apply react_ind. apply Qs_nop; auto. }
      destruct (ev_act e).
      - rewrite anonymous_anon. cbn [n_id nenter set_queue npop].
        destruct (anon (n_id s)) eqn:Ea; [exact H|]. apply Qs_broadcast; auto.
      - specialize (Hr (see (npop s) (OTask h now)) (Q_call _ _ _ (OTask h now) I H)).
        destruct (react (see (npop s) (OTask h now))). exact Hr.
      - match goal with |- context [see ?s1 (OTask h now)] =>
          specialize (Hr (see s1 (OTask h now)) (Q_call _ _ _ (OTask h now) I H));
          destruct (react (see s1 (OTask h now))) end. exact Hr.
      - match goal with |- context [see ?s1 (OTimeout r now)] =>
          specialize (Hr (see s1 (OTimeout r now)) (Q_call _ _ _ (OTimeout r now) I H));
          destruct (react (see s1 (OTimeout r now))) end. exact Hr.
    Qed.

    Lemma Qs_recv fuel s t : Qs Q s -> Qs Q (fst (recv_transfer fuel s t)).
    Proof.
      intros H. unfold Node.recv_transfer. destruct (_ && _ && _).
      - destruct (find_request t (n_requests s)) as [k|]; auto.
        destruct (dget key_eqb (n_callbacks s) k) as [[r ev]|]; auto.
        set (s1 := match cancel ev (n_queue s) with Some _ => _ | None => s end).
        assert (H1 : Qs Q s1) by (unfold s1; destruct (cancel ev (n_queue s)); exact H).
        assert (H2 : Qs Q (fst (react (see s1 (OResponse r t))))).
        { apply react_ind; [apply Qs_nop; auto|]. now apply Q_call. }
        destruct (react (see s1 (OResponse r t))) as [s2 [y|x]]; cbn [fst] in *; auto.
        destruct (negb _); auto. destruct (negb _); auto.
      - destruct (_ || _ || _); auto. apply call_handlers_ind; auto.
        + apply Qs_nop; auto.
        + intros s' hd t' H'. now apply Q_call.
        + intros. apply Qs_respond; auto.
    Qed.

    Lemma Qs_history fuel s ins : Qs Q s -> Qs Q (node_history fuel s ins).
    Proof.
      apply history_ind; auto.
      - apply Qs_nop; auto.
      - apply Qs_recv.
      - intros; eapply Qs_exec; eauto.
    Qed.
  End SimpleHistory.

  (** ** C24: transfer ids *)

  Lemma attempted_app k l1 l2 : attempted k (l1 ++ l2) = attempted k l1 ++ attempted k l2.
  Proof.
    induction l1 as [|o l1 IH]; cbn; auto. destruct o; auto. destruct session; auto.
    destruct (key_eqb k0 k); cbn; congruence.
  Qed.

  Definition numbered (l : list N) : Prop :=
    forall j x, nth_error l j = Some x -> x = (N.of_nat j mod 32)%N.

  Lemma numbered_snoc l : numbered l -> numbered (l ++ [(N.of_nat (length l) mod 32)%N]).
  Proof.
    intros H j x Hj. destruct (Nat.lt_ge_cases j (length l)) as [L|L].
    - rewrite nth_error_app1 in Hj by auto. auto.
    - rewrite nth_error_app2 in Hj by auto. destruct (j - length l)%nat eqn:E.
      + cbn in Hj. assert (j = length l) by lia. congruence.
      + destruct n; discriminate.
  Qed.

  Definition ids_ok (i : option N) (n : list (key * N)) (l : list nobs) : Prop :=
    forall k, numbered (attempted k l) /\
              current n k = (N.of_nat (length (attempted k l)) mod 32)%N.

  Lemma land_31 x : N.land x 0x1F = (x mod 32)%N.
  Proof. change 0x1F%N with (N.ones 5). now rewrite N.land_ones. Qed.

  Lemma ids_ok_history fuel s ins : n_log s = [] -> n_next s = [] ->
    Qs ids_ok (node_history fuel s ins).
  Proof.
    intros El En. apply Qs_history.
    - intros i n l o Ho H k. rewrite attempted_app.
      replace (attempted k [o]) with (@nil N) by (destruct o; cbn in *; tauto).
      rewrite app_nil_r. apply H.
    - intros i n l k h fs err _ _ _ H k'. rewrite attempted_app. cbn.
      unfold current. destruct (key_eqb k k') eqn:E.
      + apply key_eqb_spec in E. subst k'. destruct (H k) as [H1 H2].
        fold (current n k). rewrite (dget_dset_same _ key_eqb_spec). rewrite H2.
        split; [now apply numbered_snoc|]. rewrite land_31, app_length. cbn.
        rewrite Nat2N.inj_add. cbn. rewrite N.add_mod_idemp_l by lia. reflexivity.
      + assert (k <> k') by (intros ->; rewrite (proj2 (key_eqb_spec k' k') eq_refl) in E; discriminate).
        rewrite (dget_dset_other _ key_eqb_spec) by auto. rewrite app_nil_r. apply H.
    - intros i n l h tid fs err _ _ _ H k. rewrite attempted_app. cbn. rewrite app_nil_r. apply H.
    - intros i n l v _ _ H k. rewrite attempted_app. cbn. rewrite app_nil_r. apply H.
    - unfold Qs, ids_ok. rewrite El, En. intros k. cbn. split; [|reflexivity].
      intros j x Hj. destruct j; discriminate.
  Qed.

  Lemma completed_attempted k l :
    (forall h tid fs x, ~ In (OSend (Some k) h tid fs (Some x)) l) -> completed k l = attempted k l.
  Proof.
    induction l as [|o l IH]; cbn; intros H; auto.
    assert (IH' : completed k l = attempted k l) by (apply IH; intros h tid fs x Hi; apply (H h tid fs x); auto).
    destruct o; auto. destruct session as [k'|]; auto. destruct err as [x|].
    - destruct (key_eqb k' k) eqn:E; auto. apply key_eqb_spec in E. subst k'.
      exfalso. apply (H h tid fs x). auto.
    - destruct (key_eqb k' k); congruence.
  Qed.

  (** ** C32: the node id *)

  Lemma bus_app l1 l2 : bus (l1 ++ l2) = bus l1 ++ bus l2.
  Proof. induction l1 as [|o l1 IH]; cbn; auto. destruct o; auto. now rewrite IH, app_assoc. Qed.
  Lemma ids_set_app l1 l2 : ids_set (l1 ++ l2) = ids_set l1 ++ ids_set l2.
  Proof. induction l1 as [|o l1 IH]; cbn; auto. destruct o; auto. cbn. congruence. Qed.

  Definition id_ok (i0 : option N) (i : option N) (n : list (key * N)) (l : list nobs) : Prop :=
    (anon i = true -> bus l = []) /\
    (ids_set l = [] /\ i = i0 \/
     anon i0 = true /\ exists v, ids_set l = [v] /\ (1 <= v <= 127)%N /\ i = Some v).

  Lemma id_ok_history fuel s ins : n_log s = [] -> Qs (id_ok (n_id s)) (node_history fuel s ins).
  Proof.
    intros El. apply Qs_history.
    - intros i n l o Ho [H1 H2]. split.
      + intros Ha. rewrite bus_app, (H1 Ha). destruct o; cbn in *; tauto.
      + rewrite ids_set_app. replace (ids_set [o]) with (@nil N) by (destruct o; cbn in *; tauto).
        now rewrite app_nil_r.
    - intros i n l k h fs err Ha _ _ [H1 H2]. split; [intros; congruence|].
      rewrite ids_set_app. cbn. now rewrite app_nil_r.
    - intros i n l h tid fs err Ha _ _ [H1 H2]. split; [intros; congruence|].
      rewrite ids_set_app. cbn. now rewrite app_nil_r.
    - intros i n l v Ha Hv [H1 H2]. split.
      + cbn. destruct (N.eqb_spec v 0); [lia|discriminate].
      + right. rewrite ids_set_app. destruct H2 as [[E1 E2]|(Ha0 & v' & E1 & Hv' & E2)].
        * rewrite E1. cbn. split; [congruence|eauto].
        * subst i. cbn in Ha. lia.
    - unfold Qs, id_ok. rewrite El. cbn. auto.
  Qed.

  (** A transfer of the node carries its id; frames are sent under that
      source. *)
  Definition source_ok (i : option N) (n : list (key * N)) (l : list nobs) : Prop :=
    forall sess h tid fs err, In (OSend sess h tid fs err) l ->
      h_source h = i /\ anon i = false /\ sent_fine h tid fs err.

  Lemma source_ok_history fuel s ins : n_log s = [] -> Qs source_ok (node_history fuel s ins).
  Proof.
    intros El. apply Qs_history.
    - intros i n l o Ho H sess h tid fs err Hi. apply in_app_or in Hi.
      destruct Hi as [Hi|[E|[]]]; [eauto|]. subst o. destruct Ho.
    - intros i n l k h fs err Ha Hh Hf H sess h' tid fs' err' Hi. apply in_app_or in Hi.
      destruct Hi as [Hi|[E|[]]]; [eauto|]. injection E; intros; subst; auto.
    - intros i n l h tid fs err Ha Hh Hf H sess h' tid' fs' err' Hi. apply in_app_or in Hi.
      destruct Hi as [Hi|[E|[]]]; [eauto|]. injection E; intros; subst; auto.
    - intros i n l v Ha Hv H sess h tid fs err Hi. apply in_app_or in Hi.
      destruct Hi as [Hi|[E|[]]]; [|discriminate]. apply H in Hi. destruct Hi as (? & ? & ?); congruence.
    - unfold Qs, source_ok. rewrite El. cbn. tauto.
  Qed.
End Facts.

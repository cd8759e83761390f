(** A sequence of transfers from one node, as another node hears it. *)
From Verif.Base Require Import Prelude.
From Verif.Model Require Import Types Codec MsgId Frames TransferManager Sched Node.
From Verif.Spec Require Import CodecSpec MsgIdSpec FrameSpec ReassemblySpec SendingSpec NodeSpec CallSpec StreamSpec.
From Verif.Proofs Require Import MsgIdFacts ReassemblyFacts ManagerFacts TransferTop NodeFacts RequestFacts NodeRequests NodeDispatch NodeTop NodeNet NodeCallTop.
Local Open Scope Z_scope.

Lemma source_of_id h a : legal h -> h_source h = Some a -> (can_id h mod 128 = a)%N.
Proof.
  intros L E. inversion L; subst; cbn in E; injection E as <-; unfold can_id; cbn [h_priority h_service h_dtid h_request h_dest h_source h_discriminator].
  - destruct (N.eqb_spec s 0); [lia|]. change (2 ^ 24)%N with 16777216%N. change (2 ^ 8)%N with 256%N. lia.
  - change (2 ^ 24)%N with 16777216%N. change (2 ^ 8)%N with 256%N. change (2 ^ 10)%N with 1024%N. cbn [N.eqb]. lia.
  - change (2 ^ 24)%N with 16777216%N. change (2 ^ 8)%N with 256%N. change (2 ^ 16)%N with 65536%N. change (2 ^ 7)%N with 128%N.
    destruct r; [change (2 ^ 15)%N with 32768%N|]; lia.
Qed.
Lemma decoded_source types f fs t : from_frames types (f :: fs) = Ok t ->
  h_source (rx_header t) = Some (f_id f mod 128)%N /\ h_service (rx_header t) = flag (f_id f) 0x80.
Proof.
  unfold from_frames. intros H. apply bind_ok in H as (tid & _ & H). apply bind_ok in H as (u & _ & H).
  set (h := set_message_id fresh_header (f_id f)) in *.
  assert (Hh : h_source h = Some (f_id f mod 128)%N /\ h_service h = flag (f_id f) 0x80).
  { unfold h, set_message_id. change 127%N with (2 ^ 7 - 1)%N. rewrite land_mask. change (2 ^ 7)%N with 128%N.
    destruct (flag (f_id f) 128); [split; reflexivity|]. destruct (_ =? 0)%N; split; reflexivity. }
  clearbody h. destruct (types (h_dtid h) (h_service h)) as [dt|]; [|discriminate].
  apply bind_ok in H as (p & _ & H). apply bind_ok in H as ([v rest] & _ & H). injection H as <-. exact Hh.
Qed.

Lemma concat_snoc {A} (ls : list (list A)) l x : Forall (fun k => k <> []) ls -> concat ls = l ++ [x] ->
  exists ls' k, ls = ls' ++ [k ++ [x]] /\ l = concat ls' ++ k.
Proof.
  intros F E. destruct (exists_last (l := ls)) as (ls' & k & ->).
  { intros ->. destruct l; discriminate. }
  apply Forall_app in F as [_ F]. apply Forall_cons_iff in F as [F _].
  destruct (exists_last F) as (k' & y & ->). rewrite concat_app in E. cbn [concat] in E. rewrite app_nil_r, app_assoc in E.
  apply app_inj_tail in E as [<- ->]. exists ls', k'. auto.
Qed.
Lemma split_concat {A B} (R : A -> B -> Prop) : forall ls l', Forall2 R (concat ls) l' ->
  exists ls', l' = concat ls' /\ Forall2 (Forall2 R) ls ls'.
Proof.
  induction ls as [|l ls IH]; cbn [concat]; intros l' H.
  - inversion H; subst. exists []. split; [reflexivity|constructor].
  - apply Forall2_app_inv_l in H as (l1 & l2 & H1 & H2 & ->). destruct (IH l2 H2) as (ls' & -> & H').
    exists (l1 :: ls'). split; [reflexivity|constructor; assumption].
Qed.

Definition said (ours : header -> bool) (p : handler * rx) : bool :=
  negb (h_service (rx_header (snd p))) && ours (rx_header (snd p)).
Definition heard_by (types : datatypes) (ours : header -> bool) (sd : sending) (fs' : list frame) : Prop :=
  proper types sd /\ ours (s_header sd) = true /\ exists fs, sent sd fs /\ Forall2 same_frame fs fs'.

Section Stream.
  Variable clk : nat -> Z.
  Variable beh : list nobs -> list (nop * bool) * outcome.
  Variable drv : list nobs -> list frame -> option exn.
  Variable status : list nobs -> value.
  Variable status_dt : datatype.
  Variable types : datatypes.
  Variable second : Z.
  Hypothesis Hbeh : forall l op c, In (op, c) (fst (beh l)) -> keeps_handlers op.

  Notation apply_nop := (apply_nop clk drv second).
  Notation recv_transfer := (recv_transfer clk beh drv second).
  Notation recv_frame := (recv_frame clk beh drv types second).
  Notation nexec := (nexec clk beh drv status status_dt second).
  Notation npoll := (npoll clk beh drv status status_dt second).
  Notation node_history := (node_history clk beh drv status status_dt types second).
  Notation call_handler := (call_handler clk beh drv second).
  Notation call_handlers := (call_handlers clk beh drv second).
  Notation react := (react clk beh drv second).
  Notation respond := (respond drv).
  Notation send := (send drv).

  (** The handler lists stay as they are. *)
  Section Kept.
    Variables (L : list (list handler)) (c : nat).
    Definition kept (s : node) : Prop := n_lists s = L /\ n_cur s = c.
    Lemma kept_nop s op : keeps_handlers op -> kept s -> kept (fst (apply_nop s op)).
    Proof.
      intros H [A B]. destruct (nop_lists clk drv second s op) as (_ & _ & D & E); [destruct op; auto|].
      split; congruence.
    Qed.
    Lemma kept_respond s dt v dest tid prio canfd : kept s -> kept (fst (respond s dt v dest tid prio canfd)).
    Proof.
      intros H. unfold Node.respond. destruct (anonymous s); auto.
      destruct (send _ _ _ _ _ _ _) as [s' r] eqn:E. apply send_shape in E.
      destruct E as (fs & err & -> & _). destruct r; exact H.
    Qed.
    Lemma kept_react s : kept s -> kept (fst (react s)).
    Proof. apply (react_ind_if clk beh drv second keeps_handlers); [exact kept_nop|exact Hbeh]. Qed.
    Lemma kept_call s hd t : kept s -> kept (fst (call_handler s hd t)).
    Proof.
      intros H. unfold Node.call_handler. assert (H1 : kept (fst (react (see s (OHandled hd t))))) by (apply kept_react, H).
      destruct (react (see s (OHandled hd t))) as [s1 [result|x]]; cbn [fst] in *; auto.
      destruct (_ && _).
      - destruct (negb _); auto. destruct result as [[dt v]|]; auto. now apply kept_respond.
      - destruct result; auto.
    Qed.
    Lemma kept_calls fuel : forall s o i t, kept s -> kept (fst (call_handlers fuel s o i t)).
    Proof.
      induction fuel as [|fuel IH]; cbn [Node.call_handlers]; intros s o i t H; auto.
      destruct (nth_error (handler_list s o) i) as [hd|]; auto. destruct (accepts hd t); auto.
      pose proof (kept_call s hd t H) as H1. destruct (call_handler s hd t) as [s1 [x|]]; cbn [fst] in *; auto.
      destruct (n_catch s1); auto.
    Qed.
    Lemma kept_recv fuel s t : kept s -> kept (fst (recv_transfer fuel s t)).
    Proof.
      intros H. unfold Node.recv_transfer. destruct (_ && _ && _).
      - destruct (find_request t (n_requests s)) as [k|]; auto.
        destruct (dget key_eqb (n_callbacks s) k) as [[r ev]|]; auto.
        fold (called s r ev t).
        assert (H1 : kept (called s r ev t)) by (unfold called; destruct (cancel ev (n_queue s)); exact H).
        apply kept_react in H1. destruct (react (called s r ev t)) as [s2 [y|x]]; cbn [fst] in *; auto.
        destruct (negb _); auto. destruct (negb _); auto.
      - destruct (_ || _ || _); auto. now apply kept_calls.
    Qed.
    Lemma kept_exec s e q now : kept s -> n_queue s = e :: q -> kept (fst (nexec e now (npop s))).
    Proof.
      intros H Eq. unfold Node.nexec. destruct (ev_act e).
      - destruct (anonymous _); auto.
        match goal with |- context [broadcast _ ?s1 ?d ?v ?p ?c0] =>
          change (broadcast drv s1 d v p c0) with (apply_nop s1 (NBroadcast d v p c0)) end. now apply kept_nop.
      - match goal with |- context [react ?s1] => pose proof (kept_react s1 H) as H1; destruct (react s1) end. exact H1.
      - match goal with |- context [react ?s1] => pose proof (kept_react s1 H) as H1; destruct (react s1) end. exact H1.
      - match goal with |- context [react ?s1] => pose proof (kept_react s1 H) as H1; destruct (react s1) end. exact H1.
    Qed.
    Lemma kept_frame fuel s x f : kept s -> kept (fst (recv_frame fuel s x f)).
    Proof.
      intros H. unfold Node.recv_frame. destruct x; cbn [negb]; [|exact H]. cbn [nread].
      destruct (receive_frame _ _ _) as [m [[|f0 fs]|]]; try exact H.
      destruct (from_frames types (f0 :: fs)); [|exact H]. apply kept_recv. exact H.
    Qed.
    Lemma kept_input fuel s i : match i with IOp op => keeps_handlers op | ITransfer _ => False | _ => True end ->
      kept s -> kept (apply_input clk beh drv status status_dt types second fuel s i).
    Proof.
      intros Hi H. destruct i; cbn [apply_input].
      - now apply kept_nop.
      - now apply kept_frame.
      - destruct Hi.
      - apply npoll_ind; auto. intros; eapply kept_exec; eauto.
      - exact H.
    Qed.
  End Kept.

  (** Only frames make handlers be called. *)
  Section Silent.
    Variable h : list (handler * rx).
    Definition silent (s : node) : Prop := handled (n_log s) = h.
    Lemma silent_exec s e q now : silent s -> n_queue s = e :: q -> silent (fst (nexec e now (npop s))).
    Proof.
      intros H Eq. unfold Node.nexec, silent.
      assert (Hr : forall s1, handled (n_log s1) = h -> handled (n_log (fst (react s1))) = h).
      { intros s1 <-. apply handled_react. }
      destruct (ev_act e).
      - destruct (anonymous _); auto.
        match goal with |- context [broadcast _ ?s1 ?d ?v ?p ?c0] =>
          change (broadcast drv s1 d v p c0) with (apply_nop s1 (NBroadcast d v p c0)) end. now apply handled_nop.
      - match goal with |- context [react ?s1] => specialize (Hr s1); destruct (react s1) end.
        apply Hr. cbn [n_log see npop set_queue]. rewrite handled_app. cbn [handled]. rewrite app_nil_r. exact H.
      - match goal with |- context [react ?s1] => specialize (Hr s1); destruct (react s1) end.
        apply Hr. cbn [n_log see npop set_queue nenter set_holders]. rewrite handled_app. cbn [handled]. rewrite app_nil_r. exact H.
      - match goal with |- context [react ?s1] => specialize (Hr s1); destruct (react s1) end.
        apply Hr. cbn [n_log see npop set_queue set_pending]. rewrite handled_app. cbn [handled]. rewrite app_nil_r. exact H.
    Qed.
    Lemma silent_input fuel s i : match i with IFrame true _ | ITransfer _ => False | _ => True end ->
      silent s -> silent (apply_input clk beh drv status status_dt types second fuel s i).
    Proof.
      intros Hi H. destruct i; cbn [apply_input].
      - now apply handled_nop.
      - destruct extended; [destruct Hi|]. exact H.
      - destruct Hi.
      - apply npoll_ind; auto. intros; eapply silent_exec; eauto.
      - exact H.
    Qed.
  End Silent.

  Variables (id : option N) (canfd : bool) (interval : Z) (info : typeid) (fuel : nat).
  Notation after := (started clk beh drv status status_dt types second id canfd true interval info fuel).

  (** What a frame does: nothing, or the handlers are called with the transfer
      that it completes. *)
  Lemma frame_calls ins f : 
    handled (n_log (after (ins ++ [IFrame true f]))) = handled (n_log (after ins)) \/
    exists fs t hs, one_transfer (transfer_key f) fs /\ (exists pre, fs = pre ++ [f]) /\ from_frames types fs = Ok t /\
      handled (n_log (after (ins ++ [IFrame true f]))) = handled (n_log (after ins)) ++ hs /\
      Forall (fun p => snd p = t) hs.
  Proof.
    rewrite after_app. cbn [Node.node_history fold_left apply_input]. set (s := after ins).
    destruct (manager_history clk beh drv status status_dt types second fuel ins (new_node clk id canfd true interval info) []) as (arr & Harr & Hm & _); [reflexivity|].
    change (node_history fuel (new_node clk id canfd true interval info) ins) with s in Hm. cbn [app] in Hm.
    unfold Node.recv_frame. cbn [negb nread]. set (s1 := set_reads s (S (n_reads s))).
    change (n_manager s1) with (n_manager s). rewrite Hm.
    destruct (receive_frame (fst (feed new_manager arr)) f (clk (n_reads s))) as [m d] eqn:E.
    destruct d as [[|f0 fs]|]; [left; reflexivity| |left; reflexivity].
    destruct (from_frames types (f0 :: fs)) as [t|] eqn:Ef; [|left; reflexivity].
    right. assert (Hx : snd (receive_frame (fst (feed new_manager arr)) f (clk (n_reads s))) = Some (f0 :: fs)) by (rewrite E; reflexivity).
    apply receive_exact in Hx as [H1 [earlier H2]].
    destruct (handlers_called clk beh drv second fuel (set_manager s1 m) t) as (hs & Hh & Hi).
    exists (f0 :: fs), t, hs. split; [exact H1|]. split.
    { destruct (exists_last (l := f0 :: fs)) as (pre & x & Ex); [discriminate|]. exists pre. rewrite Ex in *.
      rewrite app_assoc in H2. apply app_inj_tail in H2 as [_ <-]. reflexivity. }
    split; [exact Ef|]. split; [exact Hh|]. apply Forall_forall. intros [hd t'] Hp. destruct (Hi _ _ Hp) as [-> _]. reflexivity.
  Qed.

  (** The transfers looked at, by the identifier and by the header. *)
  Variables (mine : N -> bool) (ours : header -> bool) (ins0 : list ninput).
  Hypothesis Hdec : forall f fs t, from_frames types (f :: fs) = Ok t -> h_service (rx_header t) = false ->
    ours (rx_header t) = mine (f_id f).
  Hypothesis Henc : forall h, legal h -> ours h = true -> mine (can_id h) = true.
  Let s0 := after ins0.
  Let hs := handler_list s0 (n_cur s0).
  Hypothesis Hfuel : (length hs < fuel)%nat.

  Lemma heard_one sd fs : heard_by types ours sd fs -> one_transfer (sending_key sd) fs.
  Proof.
    intros (P & _ & fs0 & S0 & F). destruct (sent_carries types sd fs0 P S0) as [body Hc].
    apply (carries_one_transfer _ (s_canfd sd) _ body). eapply carries_same; eassumption.
  Qed.
  Lemma heard_key sd fs f : heard_by types ours sd fs -> In f fs -> transfer_key f = sending_key sd.
  Proof. intros H Hi. destruct (heard_one _ _ H) as [_ Ho]. apply In_nth_error in Hi as (i & Hi). apply (Ho i f Hi). Qed.
  Lemma heard_nonempty sd fs : heard_by types ours sd fs -> fs <> [].
  Proof. intros H. destruct (heard_one _ _ H) as [Hn _]. exact Hn. Qed.
  Lemma key_from sd f : proper types sd -> ours (s_header sd) = true -> transfer_key f = sending_key sd -> mine (f_id f) = true.
  Proof.
    intros P Hs Hk. unfold transfer_key, sending_key in Hk. injection Hk as Hk _. rewrite Hk.
    apply Henc; [apply (p_legal _ _ P)|exact Hs].
  Qed.

  Lemma from_node_source f t fs : one_transfer (transfer_key f) fs -> from_frames types fs = Ok t ->
    h_service (rx_header t) = flag (f_id f) 0x80 /\ (h_service (rx_header t) = false -> ours (rx_header t) = mine (f_id f)).
  Proof.
    intros [Hn Ho] E. destruct fs as [|f0 fs]; [destruct Hn; reflexivity|]. destruct (Ho 0%nat f0 eq_refl) as (K & _). unfold transfer_key in K. injection K as <- _.
    split; [apply (decoded_source _ _ _ _ E)|apply (Hdec _ _ _ E)].
  Qed.

  Definition partial (pre : list frame) : Prop :=
    pre = [] \/ exists sd post, heard_by types ours sd (pre ++ post) /\ post <> [].

  Lemma filter_none {A} (p : A -> bool) l : Forall (fun x => p x = false) l -> filter p l = [].
  Proof. induction 1 as [|x l H F IH]; cbn; [reflexivity|]. rewrite H. exact IH. Qed.
  Lemma filter_all {A} (p : A -> bool) l : Forall (fun x => p x = true) l -> filter p l = l.
  Proof. induction 1 as [|x l H F IH]; cbn; [reflexivity|]. rewrite H, IH. reflexivity. Qed.

  Lemma key_filter sd l : proper types sd -> ours (s_header sd) = true ->
    filter (has_key (sending_key sd)) l = filter (has_key (sending_key sd)) (filter (fun f => mine (f_id f)) l).
  Proof.
    intros P H. induction l as [|f l IH]; [reflexivity|]. cbn [filter]. destruct (has_key (sending_key sd) f) eqn:E.
    - apply key_eqb_spec in E. rewrite (key_from sd f P H (eq_sym E)). cbn [filter].
      assert (E' : has_key (sending_key sd) f = true) by (apply key_eqb_spec; exact E). rewrite E', IH. reflexivity.
    - destruct (mine (f_id f)); cbn [filter]; [rewrite E|]; exact IH.
  Qed.

  Lemma all_heard : forall ins1,
    (forall i, In i ins1 -> match i with IOp op => keeps_handlers op | ITransfer _ => False | _ => True end) ->
    forall sds received pre, Forall2 (heard_by types ours) sds received -> partial pre ->
    filter (fun f => mine (f_id f)) (heard ins1) = concat received ++ pre ->
    kept (n_lists s0) (n_cur s0) (after (ins0 ++ ins1)) /\
    exists rs, Forall2 faithful (filter is_message sds) rs /\
      filter (said ours) (handled (n_log (after (ins0 ++ ins1)))) =
      filter (said ours) (handled (n_log s0)) ++ flat_map (to_all hs) rs.
  Proof.
    induction ins1 as [|i ins1 IH] using rev_ind; intros Hst sds received pre F Hpre E.
    { rewrite app_nil_r. split; [split; reflexivity|]. cbn in E. symmetry in E. apply app_eq_nil in E as [E ->].
      assert (received = []).
      { destruct F as [|sd fs sds' rcv H F]; [reflexivity|]. cbn in E. apply app_eq_nil in E as [E _]. destruct (heard_nonempty _ _ H E). }
      subst received. inversion F; subst. exists []. split; [constructor|]. cbn. rewrite app_nil_r. reflexivity. }
    assert (Hst1 : forall j, In j ins1 -> match j with IOp op => keeps_handlers op | ITransfer _ => False | _ => True end).
    { intros j Hj. apply Hst, in_or_app. left. exact Hj. }
    assert (Hi : match i with IOp op => keeps_handlers op | ITransfer _ => False | _ => True end).
    { apply Hst, in_or_app. right. left. reflexivity. }
    specialize (IH Hst1). rewrite heard_app, filter_app in E.
    assert (Hkeep : kept (n_lists s0) (n_cur s0) (after (ins0 ++ ins1)) -> kept (n_lists s0) (n_cur s0) (after (ins0 ++ ins1 ++ [i]))).
    { intros K. rewrite app_assoc, after_app. cbn [Node.node_history fold_left]. now apply kept_input. }
    assert (Hsil : match i with IFrame true _ | ITransfer _ => False | _ => True end ->
      kept (n_lists s0) (n_cur s0) (after (ins0 ++ ins1 ++ [i])) /\
      exists rs, Forall2 faithful (filter is_message sds) rs /\
      filter (said ours) (handled (n_log (after (ins0 ++ ins1 ++ [i])))) =
      filter (said ours) (handled (n_log s0)) ++ flat_map (to_all hs) rs).
    { intros Hx. destruct (IH sds received pre F Hpre) as (K & rs & H1 & H2).
      { rewrite <- E. destruct i as [| [|] | | |]; try destruct Hx; cbn; rewrite app_nil_r; reflexivity. }
      split; [auto|]. exists rs. split; [exact H1|]. rewrite <- H2. f_equal. rewrite app_assoc, after_app.
      cbn [Node.node_history fold_left]. apply silent_input; [exact Hx|reflexivity]. }
    destruct i as [op|x f|t| |]; try (apply Hsil; exact I); [|destruct Hi].
    destruct x; [|apply Hsil; exact I]. clear Hsil Hi. 
    assert (Eh : heard [IFrame true f] = [f]) by reflexivity. rewrite Eh in E. clear Eh. cbn [filter] in E.
    destruct (mine (f_id f)) eqn:Ea.
    2:{ (* a frame of someone else *)
      rewrite app_nil_r in E. destruct (IH sds received pre F Hpre E) as (K & rs & H1 & H2). split; [auto|].
      exists rs. split; [exact H1|]. rewrite <- H2. rewrite app_assoc. destruct (frame_calls (ins0 ++ ins1) f) as [Eq|(fs & t & l & O & _ & Ef & Eq & Fl)]; rewrite Eq; [reflexivity|].
      rewrite filter_app, (filter_none _ l), app_nil_r; [reflexivity|].
      eapply Forall_impl; [|exact Fl]. intros [hd r] Hr. cbv beta in Hr. cbn [snd] in Hr. subst r. unfold said. cbn [snd].
      pose proof (proj2 (from_node_source f t fs O Ef)) as Q. destruct (h_service (rx_header t)); [reflexivity|].
      rewrite (Q eq_refl), Ea. reflexivity. }
    destruct pre as [|p0 pre0].
    - (* the frame completes a transfer *)
      rewrite app_nil_r in E.
      destruct (concat_snoc received (filter (fun f => mine (f_id f)) (heard ins1)) f) as (rcv & pre & -> & Ep).
      { clear - F. induction F as [|sd fs sds rcv H F IHF]; constructor; [exact (heard_nonempty _ _ H)|exact IHF]. }
      { symmetry. exact E. }
      apply Forall2_app_inv_r in F as (sds1 & sds2 & F1 & F2 & ->).
      inversion F2 as [|sd fs' ? ? Hsd F3]; subst. inversion F3; subst. clear F2 F3.
      destruct (IH sds1 rcv pre F1) as (K & rs & H1 & H2).
      { right. exists sd, [f]. split; [exact Hsd|discriminate]. }
      { exact Ep. }
      split; [auto|]. pose proof Hsd as (P & Hsrc & fs & Hsent & Hsame).
      assert (Hkeys : forall g, In g (pre ++ [f]) -> has_key (sending_key sd) g = true).
      { intros g Hg. apply key_eqb_spec. symmetry. exact (heard_key sd _ g Hsd Hg). }
      assert (Hfil : filter (has_key (sending_key sd)) (heard (ins0 ++ ins1)) =
        (filter (has_key (sending_key sd)) (heard ins0) ++ filter (has_key (sending_key sd)) (concat rcv)) ++ pre).
      { rewrite heard_app, filter_app, (key_filter sd (heard ins1) P Hsrc), Ep, filter_app, <- app_assoc.
        do 2 f_equal. apply filter_all, Forall_forall. intros g Hg. apply Hkeys, in_or_app. left. exact Hg. }
      assert (Ehs : handler_list (after (ins0 ++ ins1)) (n_cur (after (ins0 ++ ins1))) = hs).
      { destruct K as [K1 K2]. unfold hs, handler_list. rewrite K1, K2. reflexivity. }
      rewrite filter_app. cbn [filter]. unfold is_message at 2. destruct (h_service (s_header sd)) eqn:Esv; cbn [negb].
      + (* a service transfer *)
        rewrite app_nil_r. exists rs. split; [exact H1|]. rewrite <- H2, app_assoc.
        destruct (frame_calls (ins0 ++ ins1) f) as [Eq|(fs2 & t & l & O & (pre2 & Epre) & Ef & Eq & Fl)]; rewrite Eq; [reflexivity|].
        rewrite filter_app, (filter_none _ l), app_nil_r; [reflexivity|].
        destruct (sent_received types sd P) as (fs0 & Hs0 & Hrec). rewrite <- (sent_det _ _ _ Hsent Hs0) in Hrec.
        destruct (Hrec _ Hsame) as (r & Hff & Hfa & _).
        assert (O1 : one_transfer (transfer_key f) (pre ++ [f])).
        { rewrite (heard_key sd _ f Hsd) by (apply in_or_app; right; left; reflexivity). exact (heard_one sd _ Hsd). }
        pose proof (proj1 (from_node_source f r _ O1 Hff)) as Q1. rewrite (f_header _ _ Hfa), Esv in Q1.
        pose proof (proj1 (from_node_source f t _ O Ef)) as Q2. rewrite <- Q1 in Q2.
        eapply Forall_impl; [|exact Fl]. intros [hd r'] Hr. cbv beta in Hr. cbn [snd] in Hr. subst r'. unfold said. cbn [snd].
        rewrite Q2. reflexivity.
      + (* a message *)
        destruct (transfer_reaches clk beh drv status status_dt types second id canfd interval info fuel (ins0 ++ ins1) sd fs pre f
          (filter (has_key (sending_key sd)) (heard ins0) ++ filter (has_key (sending_key sd)) (concat rcv))) as (r & Hfa & Hh); auto.
        { intros l op c Hop. specialize (Hbeh l op c Hop). destruct op; auto. }
        { intros l op c Hop. specialize (Hbeh l op c Hop). destruct op; auto. }
        { rewrite Ehs. exact Hfuel. }
        exists (rs ++ [r]). split; [apply Forall2_app; [exact H1|constructor; [exact Hfa|constructor]]|].
        rewrite Ehs in Hh. rewrite app_assoc, Hh, filter_app, H2, flat_map_app, <- app_assoc. f_equal. f_equal.
        cbn [flat_map]. rewrite app_nil_r. apply filter_all, Forall_forall. intros [hd r'] Hin.
        apply in_map_iff in Hin as (hd' & Hin & _). injection Hin as _ <-. unfold said. cbn [snd].
        rewrite (f_header _ _ Hfa), Esv, Hsrc. reflexivity.
    - (* the frame is in the middle of a transfer *)
      destruct Hpre as [Hpre|(sd & post & Hsd & Hpost)]; [discriminate|].
      destruct (exists_last (l := p0 :: pre0)) as (pre & g & Eg); [discriminate|]. rewrite Eg in *. clear Eg p0 pre0.
      rewrite app_assoc in E. apply app_inj_tail in E as [E <-].
      destruct (IH sds received pre F) as (K & rs & H1 & H2); [|exact E|].
      { right. exists sd, (f :: post). rewrite <- app_assoc in Hsd. split; [exact Hsd|discriminate]. }
      split; [auto|]. exists rs. split; [exact H1|]. rewrite <- H2, app_assoc.
      destruct (frame_calls (ins0 ++ ins1) f) as [Eq|(fs2 & t & l & O & (pre2 & Epre) & _)]; [rewrite Eq; reflexivity|].
      exfalso. subst fs2. destruct O as [_ O]. destruct (O (length pre2) f) as (_ & _ & E1).
      { rewrite nth_error_app2, Nat.sub_diag by lia. reflexivity. }
      rewrite app_length in E1. cbn [length] in E1. rewrite Nat.add_1_r, Nat.eqb_refl in E1.
      destruct (heard_one sd _ Hsd) as [_ O']. destruct (O' (length pre) f) as (_ & _ & E2).
      { rewrite <- app_assoc, nth_error_app2, Nat.sub_diag by lia. reflexivity. }
      rewrite E1 in E2. symmetry in E2. apply Nat.eqb_eq in E2. rewrite !app_length in E2. cbn [length] in E2.
      destruct post; [destruct Hpost; reflexivity|cbn [length] in E2; lia].
  Qed.
End Stream.

(** The sender. *)
Definition carried (a : N) (b : bcast) (sd : sending) : Prop :=
  (exists p, (p < 32)%N /\ s_header sd = Header p false false (Some a) None (dt_id (b_type b)) None) /\
  s_datatype sd = b_type b /\ s_value sd = b_value b.

Lemma carried_proper types a b sd : (1 <= a < 128)%N -> fit types b -> carried a b sd -> proper types sd.
Proof.
  intros Ha (F1 & F2 & F3 & F4 & F5 & _) ((p & Hp & Eh) & Ed & Ev).
  constructor; rewrite ?Eh, ?Ed, ?Ev; cbn [h_dtid h_service]; auto. constructor; assumption.
Qed.

Section Sender.
  Variable clk : nat -> Z.
  Variable drv : list nobs -> list frame -> option exn.
  Variable second : Z.
  Variable types : datatypes.
  Hypothesis Hdrv : forall l fs, drv l fs = None.
  Notation apply_nop := (apply_nop clk drv second).

  Lemma broadcast_sent s a b : n_id s = Some a -> (1 <= a < 128)%N -> fit types b ->
    let s' := fst (apply_nop s (broadcasting b)) in
    n_id s' = Some a /\ exists sd fs, carried a b sd /\ sent sd fs /\ bus (n_log s') = bus (n_log s) ++ fs.
  Proof.
    intros Hid Ha F. cbn [broadcasting Node.apply_nop]. unfold Node.broadcast.
    assert (An : anonymous s = false).
    { unfold anonymous. rewrite Hid. destruct (N.eqb_spec a 0); [lia|reflexivity]. }
    rewrite An. cbn [next_transfer_id]. set (tid := match _ with Some t => t | None => 0%N end).
    set (s1 := set_next _ _). unfold Node.send. set (fd := match b_canfd b with Some c => c | None => n_canfd s1 end).
    set (sd := Sending (Header (or_default (b_prio b)) false false (Some a) None (dt_id (b_type b)) None) tid (b_type b) (b_value b) fd).
    assert (C : carried a b sd).
    { split; [|split; reflexivity]. exists (or_default (b_prio b)). split; [|reflexivity].
      destruct F as (_ & _ & _ & _ & _ & Fp). unfold or_default. destruct (b_prio b) as [p|]; [|lia]. destruct (N.eqb p 0); lia. }
    destruct (sent_received types sd (carried_proper types a b sd Ha F C)) as (fs & Hs & _).
    destruct Hs as (t & padded & Em & Ef). cbn [sd s_header s_tid s_datatype s_value s_canfd] in Em.
    change (n_id s1) with (n_id s). rewrite Hid.
    assert (Em' : make_tx (Header (or_default (b_prio b)) false false (Some a) None 0 None) tid (b_type b) (b_value b) fd = Ok t).
    { rewrite <- Em. reflexivity. }
    rewrite Em', Ef, (send_all _ _ Hdrv). cbn [fst app n_id n_log see]. split; [exact Hid|].
    exists sd, fs. split; [exact C|]. split; [exists t, padded; split; assumption|].
    rewrite bus_app. cbn [bus]. rewrite app_nil_r. reflexivity.
  Qed.

  Lemma broadcasts_sent bs : forall s a, n_id s = Some a -> (1 <= a < 128)%N -> Forall (fit types) bs ->
    exists sds fss, Forall2 (carried a) bs sds /\ Forall2 sent sds fss /\
      bus (n_log (fold_left (fun s b => fst (apply_nop s (broadcasting b))) bs s)) = bus (n_log s) ++ concat fss.
  Proof.
    induction bs as [|b bs IH]; intros s a Hid Ha F.
    - exists [], []. cbn. rewrite app_nil_r. repeat split; constructor.
    - apply Forall_cons_iff in F as [F1 F2]. destruct (broadcast_sent s a b Hid Ha F1) as (Hid1 & sd & fs & C & Sd & B).
      destruct (IH _ a Hid1 Ha F2) as (sds & fss & C' & S' & B'). exists (sd :: sds), (fs :: fss).
      split; [constructor; assumption|]. split; [constructor; assumption|]. cbn [fold_left concat]. rewrite B', B, <- app_assoc. reflexivity.
  Qed.
End Sender.

Lemma ran_broadcasts A ins bs : ran A (ins ++ broadcast_all bs) =
  fold_left (fun s b => fst (apply_nop (st_clk A) (st_drv A) (st_second A) s (broadcasting b))) bs (ran A ins).
Proof.
  unfold ran, node_history. rewrite fold_left_app. unfold broadcast_all.
  generalize (fold_left (apply_input (st_clk A) (st_beh A) (st_drv A) (st_status A) (st_status_dt A) (st_types A) (st_second A) (st_fuel A)) ins
    (new_node (st_clk A) (st_id A) (st_canfd A) (st_catch A) (st_interval A) (st_info A))).
  induction bs as [|b bs IH]; intros s; [reflexivity|]. cbn [map fold_left]. rewrite IH. reflexivity.
Qed.

Lemma stream_heard B ins0 ins1 a sds received :
  st_catch B = true -> steady (st_beh B) ins1 -> (length (handlers_of (ran B ins0)) < st_fuel B)%nat ->
  Forall2 (heard_as (st_types B) a) sds received ->
  filter (from_node a) (heard ins1) = concat received ->
  exists rs, Forall2 faithful (filter is_message sds) rs /\
    filter (said_by a) (handled (n_log (ran B (ins0 ++ ins1)))) =
    filter (said_by a) (handled (n_log (ran B ins0))) ++ flat_map (to_all (handlers_of (ran B ins0))) rs.
Proof.
  intros Hc [S1 S2] Hf F E. unfold ran in *. rewrite Hc in *.
  destruct (all_heard (st_clk B) (st_beh B) (st_drv B) (st_status B) (st_status_dt B) (st_types B) (st_second B) S1
    (st_id B) (st_canfd B) (st_interval B) (st_info B) (st_fuel B) (fun i => i mod 128 =? a)%N
    (fun h => optN_eqb (h_source h) (Some a)) ins0) with (ins1 := ins1) (sds := sds) (received := received) (pre := @nil frame) as (_ & H).
  - intros f fs t Ef _. rewrite (proj1 (decoded_source _ _ _ _ Ef)). cbn. reflexivity.
  - intros h L Eo. apply optN_eqb_spec in Eo. apply N.eqb_eq. exact (source_of_id h a L Eo).
  - exact Hf.
  - exact S2.
  - clear - F. induction F as [|sd fs sds rcv (P & Q & R) F IH]; constructor; [|exact IH].
    split; [exact P|]. split; [apply optN_eqb_spec; exact Q|exact R].
  - left. reflexivity.
  - rewrite app_nil_r. exact E.
  - exact H.
Qed.

Lemma broadcasts_heard A insA a bs out B ins0 ins1 :
  (forall l fs, st_drv A l fs = None) -> n_id (ran A insA) = Some a -> (1 <= a < 128)%N -> Forall (fit (st_types B)) bs ->
  bus (n_log (ran A (insA ++ broadcast_all bs))) = bus (n_log (ran A insA)) ++ out ->
  st_catch B = true -> steady (st_beh B) ins1 -> (length (handlers_of (ran B ins0)) < st_fuel B)%nat ->
  Forall2 same_frame out (filter (from_node a) (heard ins1)) ->
  exists rs, Forall2 (conveys a) bs rs /\
    filter (said_by a) (handled (n_log (ran B (ins0 ++ ins1)))) =
    filter (said_by a) (handled (n_log (ran B ins0))) ++ flat_map (to_all (handlers_of (ran B ins0))) rs.
Proof.
  intros Hd Hid Ha F Eo Hc Hst Hf Hsame. rewrite ran_broadcasts in Eo.
  destruct (broadcasts_sent (st_clk A) (st_drv A) (st_second A) (st_types B) Hd bs (ran A insA) a Hid Ha F) as (sds & fss & C & Sd & B').
  rewrite B' in Eo. apply app_inv_head in Eo. subst out. destruct (split_concat _ _ _ Hsame) as (received & Er & Hr).
  assert (P : Forall2 (heard_as (st_types B) a) sds received).
  { clear - C Sd Hr F Ha. revert fss received Sd Hr. induction C as [|b sd bs sds C1 C IH]; intros fss received Sd Hr.
    - inversion Sd; subst. inversion Hr; subst. constructor.
    - inversion Sd as [|? fs ? fss' S1 S2]; subst. inversion Hr as [|? r ? rcv R1 R2]; subst. apply Forall_cons_iff in F as [F1 F2].
      constructor; [|apply (IH F2 fss'); assumption]. split; [exact (carried_proper _ a b sd Ha F1 C1)|].
      split; [destruct C1 as ((p & _ & ->) & _); reflexivity|]. exists fs. split; assumption. }
  destruct (stream_heard B ins0 ins1 a sds received Hc Hst Hf P Er) as (rs & Hrs & Hh).
  exists rs. split; [|exact Hh].
  assert (Em : filter is_message sds = sds).
  { apply filter_all, Forall_forall. intros sd Hi. clear - C Hi. induction C as [|b s bs sds C1 C IH]; [destruct Hi|].
    destruct Hi as [->|Hi]; [|exact (IH Hi)]. destruct C1 as ((p & _ & E) & _). unfold is_message. rewrite E. reflexivity. }
  rewrite Em in Hrs. clear - C Hrs. revert rs Hrs. induction C as [|b sd bs sds ((p & _ & E) & Ed & Ev) C IH]; intros rs Hrs; inversion Hrs as [|? r ? rs' Fa Hrs']; subst.
  - constructor.
  - constructor; [|apply IH; assumption]. unfold conveys. rewrite (f_header _ _ Fa), E. cbn [h_service h_source].
    split; [reflexivity|]. split; [reflexivity|]. split; [rewrite (f_datatype _ _ Fa); exact Ed|].
    pose proof (f_content _ _ Fa) as Q. rewrite E, Ed, Ev in Q. exact Q.
Qed.

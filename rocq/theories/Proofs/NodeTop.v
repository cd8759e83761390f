(** The properties of nodes. *)
From Verif.Base Require Import Prelude Bits.
From Verif.Model Require Import Types Codec MsgId Frames TransferManager Sched Node.
From Verif.Spec Require Import NodeSpec MsgIdSpec FrameSpec.
From Verif.Proofs Require Import ManagerFacts SchedFacts MsgIdFacts FrameFacts NodeFacts RequestFacts NodeRequests NodeDispatch.
Local Open Scope Z_scope.

Section Top.
  Variable clk : nat -> Z.
  Variable beh : list nobs -> list (nop * bool) * outcome.
  Variable drv : list nobs -> list frame -> option exn.
  Variable status : list nobs -> value.
  Variable status_dt : datatype.
  Variable types : datatypes.
  Variable second : Z.

  Notation apply_nop := (apply_nop clk drv second).
  Notation recv_transfer := (recv_transfer clk beh drv second).
  Notation recv_frame := (recv_frame clk beh drv types second).
  Notation nexec := (nexec clk beh drv status status_dt second).
  Notation npoll := (npoll clk beh drv status status_dt second).
  Notation node_history := (node_history clk beh drv status status_dt types second).
  Notation call_handlers := (call_handlers clk beh drv second).
  Notation request := (request clk drv second).
  Notation broadcast := (broadcast drv).
  Notation respond := (respond drv).

  Definition started (id : option N) (canfd catch : bool) (interval : Z) (info : typeid)
      (fuel : nat) (ins : list ninput) : node :=
    node_history fuel (new_node clk id canfd catch interval info) ins.

  Variables (id : option N) (canfd catch : bool) (interval : Z) (info : typeid) (fuel : nat).
  Notation after := (started id canfd catch interval info fuel).

  (** ** C24 *)

  Lemma attempts_numbered ins k j tid :
    nth_error (attempted k (n_log (after ins))) j = Some tid -> tid = (N.of_nat j mod 32)%N.
  Proof.
    intros H. destruct (ids_ok_history clk beh drv status status_dt types second fuel
      (new_node clk id canfd catch interval info) ins eq_refl eq_refl k) as [Hn _].
    exact (Hn j tid H).
  Qed.

  Lemma completed_numbered ins k j tid :
    (forall h t fs x, ~ In (OSend (Some k) h t fs (Some x)) (n_log (after ins))) ->
    nth_error (completed k (n_log (after ins))) j = Some tid -> tid = (N.of_nat j mod 32)%N.
  Proof. intros Hf. rewrite (completed_attempted k _ Hf). apply attempts_numbered. Qed.

  Lemma sent_source ins sess h tid fs err : In (OSend sess h tid fs err) (n_log (after ins)) ->
    h_source h = n_id (after ins) /\ anonymous (after ins) = false /\ sent_fine h tid fs err.
  Proof.
    exact (source_ok_history clk beh drv status status_dt types second fuel
      (new_node clk id canfd catch interval info) ins eq_refl sess h tid fs err).
  Qed.

  Lemma frames_carry ins sess h tid fs err f : In (OSend sess h tid fs err) (n_log (after ins)) ->
    In f fs -> message_id h = Ok (f_id f) /\
    exists b, last_byte (f_bytes f) = Some b /\ (b mod 32 = tid mod 32)%N.
  Proof.
    intros Hin Hf. destruct (sent_source _ _ _ _ _ _ Hin) as (_ & _ & [[-> _]|(i & fd & body & rest & Hi & Hc & _)]).
    { destruct Hf. }
    assert (Hf' : In f (fs ++ rest)) by (apply in_or_app; auto).
    apply In_nth_error in Hf'. destruct Hf' as (j & Hj).
    destruct (c_frame _ _ _ _ _ Hc j f Hj) as (E1 & _ & piece & E2 & _). subst i. split; auto.
    rewrite E2. eexists. split; [apply last_byte_snoc|]. unfold tail_byte.
    destruct (Nat.eqb j 0), (Nat.eqb (S j) (length (fs ++ rest))), (Nat.odd j);
      clear; set (m := (tid mod 32)%N); assert (m < 32)%N by (apply N.mod_lt; discriminate);
      rewrite ?N.add_0_l, ?N.add_0_r; clearbody m; lia.
  Qed.

  (** ** C25 - C27 *)

  Lemma after_GS ins : GS (after ins).
  Proof. apply GS_history, GS_new. Qed.

  Lemma new_K : K None (new_node clk id canfd catch interval info).
  Proof.
    split; [apply GS_new|]. cbn. split; [intros; lia|discriminate].
  Qed.

  Lemma at_most_once ins r : calm beh ->
    (responses r (n_log (after ins)) + timeouts r (n_log (after ins)) <= 1)%nat.
  Proof.
    intros Hc. destruct (K_history clk beh drv status status_dt types second fuel _ ins Hc new_K) as (H1 & H2 & _).
    fold (after ins) in *. specialize (H2 r).
    destruct (Nat.lt_ge_cases r (n_reqs (after ins))) as [L|L].
    - destruct (g_one _ _ _ _ _ _ _ H1 r L) as [[A B]|(A & B & D)]; lia.
    - destruct (g_fresh _ _ _ _ _ _ _ H1 r L) as (A & B & _). lia.
  Qed.

  Lemma after_app ins1 ins2 : after (ins1 ++ ins2) = node_history fuel (after ins1) ins2.
  Proof. unfold started, Node.node_history. apply fold_left_app. Qed.

  Lemma exactly_once ins s' d r h tid dl : calm beh -> (forall i j, (i <= j)%nat -> clk i <= clk j) ->
    npoll fuel (after ins) = (s', Ok d) -> In (ORequest r h tid dl) (n_log (after ins)) ->
    dl <= clk (n_reads (after ins)) ->
    (responses r (n_log s') + timeouts r (n_log s') = 1)%nat.
  Proof.
    intros Hc Hm Hp Hin Hdl.
    pose proof (polled clk beh drv status status_dt second fuel _ _ _ _ _ _ _ Hm (after_GS ins) Hp Hin Hdl).
    pose proof (at_most_once (ins ++ [IPoll]) r Hc) as H1. rewrite after_app in H1. cbn in H1.
    rewrite Hp in H1. cbn [fst] in H1. lia.
  Qed.

  Lemma timeout_excludes ins r :
    (timeouts r (n_log (after ins)) <= 1)%nat /\
    (timeouts r (n_log (after ins)) = 0%nat \/ responses r (n_log (after ins)) = 0%nat).
  Proof.
    pose proof (after_GS ins) as H1.
    destruct (Nat.lt_ge_cases r (n_reqs (after ins))) as [L|L].
    - destruct (g_one _ _ _ _ _ _ _ H1 r L) as [[A B]|(A & B & D)]; lia.
    - destruct (g_fresh _ _ _ _ _ _ _ H1 r L) as (A & B & _). lia.
  Qed.

  Lemma timeout_due ins l1 r now l2 : n_log (after ins) = l1 ++ OTimeout r now :: l2 ->
    exists h tid dl, In (ORequest r h tid dl) l1 /\ dl <= now.
  Proof.
    intros E. destruct (g_legal _ _ _ _ _ _ _ (after_GS ins) l1 _ l2 E) as (_ & _ & H). exact H.
  Qed.

  Lemma response_matches ins l1 r t l2 : n_log (after ins) = l1 ++ OResponse r t :: l2 ->
    timeouts r l1 = 0%nat /\
    exists h tid dl, In (ORequest r h tid dl) l1 /\
      (exists sess fs, In (OSend sess h tid fs None) l1) /\
      h_service (rx_header t) = true /\ h_request (rx_header t) = false /\
      h_source (rx_header t) = h_dest h /\ h_dest (rx_header t) = n_id (after ins) /\
      h_dtid (rx_header t) = h_dtid h /\ rx_tid t = tid.
  Proof.
    intros E. pose proof (g_legal _ _ _ _ _ _ _ (after_GS ins)) as HL.
    destruct (HL l1 _ l2 E) as (H0 & h & tid & dl & Hin & A & B & C & D & F & H). split; auto.
    exists h, tid, dl. split; auto.
    apply in_split in Hin. destruct Hin as (a & b & ->).
    destruct (HL a (ORequest r h tid dl) (b ++ OResponse r t :: l2)) as ((l0 & sess & fs & ->) & _).
    { rewrite E, <- app_assoc. reflexivity. }
    assert (Hs : In (OSend sess h tid fs None) ((l0 ++ [OSend sess h tid fs None]) ++ ORequest r h tid dl :: b)).
    { apply in_or_app. left. apply in_or_app. right. cbn. auto. }
    split; [eauto|]. repeat split; auto. rewrite D.
    destruct (sent_source ins sess h tid fs None) as (G & _ & _); auto.
    rewrite E. apply in_or_app. left. exact Hs.
  Qed.

  (** ** C29 *)

  Lemma every_handler ins t s' : removes_none beh ->
    let s := after ins in
    call_handlers fuel s (n_cur s) 0 t = (s', None) ->
    exists extra,
      handled (n_log s') = handled (n_log s) ++
        map (fun hd => (hd, t)) (filter (fun hd => accepts hd t) (handler_list s (n_cur s)) ++ extra) /\
      Forall (fun hd => (n_hds s <= hd_id hd)%nat) extra.
  Proof.
    intros Hr s H. assert (Hc : (n_cur s < length (n_lists s))%nat) by (apply cur_history; cbn; lia).
    exact (dispatch_all clk beh drv second fuel Hr s (n_cur s) 0 t s' H Hc Hc).
  Qed.

  Lemma dispatch_total ins t : removes_none beh -> adds_none beh ->
    let s := after ins in
    n_catch s = true -> (length (handler_list s (n_cur s)) < fuel)%nat ->
    snd (call_handlers fuel s (n_cur s) 0 t) = None.
  Proof.
    intros Hr Ha s Hc Hf. assert (Hcu : (n_cur s < length (n_lists s))%nat) by (apply cur_history; cbn; lia).
    apply dispatch_ends; auto; [|lia].
    intros l op c Hi. split; [exact (Hr l op c Hi)|exact (Ha l op c Hi)].
  Qed.

  (** ** C32 *)

  Lemma id_once ins :
    (ids_set (n_log (after ins)) = [] /\ n_id (after ins) = id) \/
    (match id with None => True | Some n => n = 0%N end /\
     exists v, ids_set (n_log (after ins)) = [v] /\ (1 <= v <= 127)%N /\ n_id (after ins) = Some v).
  Proof.
    destruct (id_ok_history clk beh drv status status_dt types second fuel
      (new_node clk id canfd catch interval info) ins eq_refl) as [_ [H|[H1 H2]]]; [left; exact H|right].
    split; auto. cbn in H1. destruct id as [n|]; cbn in H1; auto. now apply N.eqb_eq.
  Qed.

  Lemma anonymous_silent ins : anonymous (after ins) = true -> bus (n_log (after ins)) = [].
  Proof.
    destruct (id_ok_history clk beh drv status status_dt types second fuel
      (new_node clk id canfd catch interval info) ins eq_refl) as [H _]. exact H.
  Qed.

  Lemma anonymous_refused s : anonymous s = true ->
    (forall dt v dest prio timeout c, apply_nop s (NRequest dt v dest prio timeout c) = (s, Some UAVCANException)) /\
    (forall dt v prio c, apply_nop s (NBroadcast dt v prio c) = (s, Some UAVCANException)) /\
    (forall dt v dest tid prio c, apply_nop s (NRespond dt v dest tid prio c) = (s, Some UAVCANException)).
  Proof.
    intros H. cbn. unfold Node.request, Node.broadcast, Node.respond. rewrite H. auto.
  Qed.

  Lemma set_id_outcome s v :
    match apply_nop s (NSetId v) with
    | (s', None) => anonymous s = true /\ 1 <= v <= 127 /\ n_id s' = Some (Z.to_N v)
    | (s', Some x) => s' = s /\ (anonymous s = true /\ ~ 1 <= v <= 127 /\ x = ValueError \/
                                 anonymous s = false /\ x = UAVCANException)
    end.
  Proof.
    cbn. unfold set_node_id. destruct (anonymous s); [|auto].
    destruct ((1 <=? v) && (v <=? 127)) eqn:E.
    - repeat split; lia.
    - split; auto. left. repeat split; lia.
  Qed.

  (** ** C33 *)

  Definition used_priority (prio : option N) (p : N) : Prop :=
    match prio with
    | None => p = 20%N
    | Some q => if (q =? 0)%N then p = 20%N else p = q
    end.

  Lemma or_default_used prio : used_priority prio (or_default prio).
  Proof. destruct prio as [q|]; cbn; auto. destruct (N.eqb_spec q 0); reflexivity. Qed.

  Lemma fine_priority h tid fs err f : sent_fine h tid fs err -> (h_priority h < 32)%N ->
    (exists n, h_source h = Some n /\ 1 <= n < 128)%N ->
    h_discriminator h = None -> (h_service h = false -> h_request h = false /\ h_dest h = None) ->
    In f fs -> (f_id f / 2 ^ 24 = h_priority h)%N.
  Proof.
    intros [[-> _]|(i & fd & body & rest & Hi & Hc & _)] Hp Hs Hd Hm Hf; [destruct Hf|].
    assert (Hf' : In f (fs ++ rest)) by (apply in_or_app; auto).
    apply In_nth_error in Hf'. destruct Hf' as (j & Hj).
    destruct (c_frame _ _ _ _ _ Hc j f Hj) as (E1 & _). rewrite E1.
    eapply priority_bits; eauto.
  Qed.

  Lemma broadcast_priority s n dt v prio c s' x : n_id s = Some n -> (1 <= n <= 127)%N ->
    match prio with Some p => p < 32 | None => True end%N ->
    apply_nop s (NBroadcast dt v prio c) = (s', x) ->
    exists p tid fs, used_priority prio p /\
      n_log s' = n_log s ++ [OSend (Some (dt_id dt, None))
        (Header p false false (Some n) None (dt_id dt) None) tid fs x] /\
      forall f, In f fs -> (f_id f / 2 ^ 24 = p)%N.
  Proof.
    intros Hn Hr Hp H. cbn in H. unfold Node.broadcast in H.
    assert (Ha : anonymous s = false) by (unfold anonymous; rewrite Hn; destruct (N.eqb_spec n 0); [lia|auto]).
    rewrite Ha in H. cbn [next_transfer_id] in H.
    destruct (send _ _ _ _ _ _ _ _) as [s1 r] eqn:E. apply send_shape in E.
    destruct E as (fs & err & -> & Hf & He). unfold sent_header in *. cbn in Hf, H, He. rewrite Hn in *.
    exists (or_default prio), (match dget key_eqb (n_next s) (dt_id dt, None) with Some t => t | None => 0%N end), fs.
    split; [apply or_default_used|]. split.
    - destruct r; assert (err = x) as -> by (destruct He; congruence); injection H as <- _; reflexivity.
    - intros f Hif. eapply (fine_priority _ _ _ _ f Hf); cbn; auto.
      + destruct prio as [q|]; cbn; [destruct (N.eqb_spec q 0)|]; lia.
      + exists n. split; auto. lia.
  Qed.

  Definition used_timeout (timeout : option Z) (t : Z) : Prop :=
    match timeout with
    | None => t = second
    | Some u => if u =? 0 then t = second else t = u
    end.

  Lemma request_priority s n dt v dest prio timeout c s' x : n_id s = Some n -> (1 <= n <= 127)%N ->
    match prio with Some p => p < 32 | None => True end%N ->
    apply_nop s (NRequest dt v dest prio timeout c) = (s', x) ->
    exists p tid fs more err, used_priority prio p /\
      n_log s' = n_log s ++ OSend (Some (dt_id dt, Some dest))
        (Header p true true (Some n) (Some dest) (dt_id dt) None) tid fs err :: more /\
      (forall f, In f fs -> (f_id f / 2 ^ 24 = p)%N) /\
      (x = None -> exists t, used_timeout timeout t /\
         more = [ORequest (n_reqs s) (Header p true true (Some n) (Some dest) (dt_id dt) None) tid
                          (clk (n_reads s) + t)]).
  Proof.
    intros Hn Hr Hp H. cbn in H. unfold Node.request in H.
    assert (Ha : anonymous s = false) by (unfold anonymous; rewrite Hn; destruct (N.eqb_spec n 0); [lia|auto]).
    rewrite Ha in H. cbn [next_transfer_id] in H.
    destruct (send _ _ _ _ _ _ _ _) as [s1 r] eqn:E. apply send_shape in E.
    destruct E as (fs & err & -> & Hf & He). unfold sent_header in *. cbn in Hf, He. rewrite Hn in *.
    exists (or_default prio), (match dget key_eqb (n_next s) (dt_id dt, Some dest) with Some t => t | None => 0%N end), fs.
    assert (Hfr : forall f, In f fs -> (f_id f / 2 ^ 24 = or_default prio)%N).
    { intros f Hif. eapply (fine_priority _ _ _ _ f Hf); cbn; auto.
      + destruct prio as [q|]; cbn; [destruct (N.eqb_spec q 0)|]; lia.
      + exists n. split; auto. lia.
      + discriminate. }
    destruct r as [t|e].
    - destruct He as (-> & Eh & Et & _).
      destruct (message_id (tx_header t)) as [i|e] eqn:Ei.
      + cbn in H. rewrite Hn in H. injection H as <- <-. rewrite Eh. cbn.
        eexists [_], None. split; [apply or_default_used|]. split; [rewrite <- app_assoc; reflexivity|].
        split; auto. intros _. exists (match timeout with Some t0 => if t0 =? 0 then second else t0 | None => second end).
        split; [|reflexivity]. destruct timeout as [u|]; cbn; auto. destruct (u =? 0); auto.
      + injection H as <- <-. cbn. rewrite Hn. exists [], None. split; [apply or_default_used|]. split; auto. split; auto.
        discriminate.
    - subst err. injection H as <- <-. cbn. rewrite Hn. exists [], (Some e). split; [apply or_default_used|]. split; auto.
      split; auto. discriminate.
  Qed.

  (** ** C65 *)

  Variable receive : list nobs -> nat -> Z -> res (option (bool * frame)).
  Notation execute_once := (execute_once clk beh drv status status_dt types second receive).
  Notation spin_loop := (spin_loop clk beh drv status status_dt types second receive).
  Notation drain := (drain clk beh drv types second receive).
  Notation spin := (spin clk beh drv status status_dt types second receive).

  Lemma frames_in_app a b : frames_in (a ++ b) = frames_in a ++ frames_in b.
  Proof. induction a as [|i a IH]; cbn; auto. destruct i; cbn; congruence. Qed.

  Lemma polled_first_app a b : polled_first a -> polled_first b -> polled_first (a ++ b).
  Proof.
    intros Ha Hb u x f v E.
    destruct (Nat.lt_ge_cases (length u) (length a)) as [L|L].
    - apply (Ha u x f (firstn (length a - S (length u)) v)).
      assert (E' : firstn (length a) (a ++ b) = firstn (length a) (u ++ IFrame x f :: v)) by congruence.
      rewrite firstn_app, Nat.sub_diag, firstn_all in E'. cbn in E'. rewrite app_nil_r in E'. etransitivity; [exact E'|]. clear E'.
      rewrite firstn_app. rewrite firstn_all2 by lia. f_equal.
      replace (length a - length u)%nat with (S (length a - S (length u))) by lia. reflexivity.
    - assert (Eu : u = a ++ skipn (length a) u).
      { rewrite <- (firstn_skipn (length a) u) at 1. f_equal.
        assert (E' : firstn (length a) (a ++ b) = firstn (length a) (u ++ IFrame x f :: v)) by congruence.
        rewrite firstn_app, Nat.sub_diag, firstn_all in E'. cbn in E'. rewrite app_nil_r in E'. transitivity (firstn (length a) (u ++ IFrame x f :: v)); [|auto]. clear E'.
        rewrite firstn_app. replace (length a - length u)%nat with 0%nat by lia. cbn. now rewrite app_nil_r. }
      rewrite Eu, <- app_assoc in E. apply app_inv_head in E.
      destruct (Hb _ _ _ _ E) as (a' & Ea). exists (a ++ a'). rewrite Eu, Ea, app_assoc. reflexivity.
  Qed.

  Lemma polled_none ins : frames_in ins = [] -> polled_first ins.
  Proof.
    intros H a x f b ->. rewrite frames_in_app in H. cbn in H. destruct (frames_in a); discriminate.
  Qed.

  Lemma once_history dl s got n s' got' r : execute_once fuel dl s got n = (s', got', r) ->
    exists ins, s' = node_history fuel s ins /\ got' = got ++ frames_in ins /\ polled_first ins /\
      match r with Ok c => c = N.of_nat (length (frames_in ins)) | Err _ => True end.
  Proof.
    unfold Node.execute_once. intros H. destruct (npoll fuel s) as [s1 [next|x]] eqn:Ep.
    2:{ injection H as <- <- <-. exists [IPoll]. cbn. rewrite Ep, app_nil_r. repeat split; auto. now apply polled_none. }
    cbn [nread] in H. set (s2 := set_reads s1 _) in *.
    assert (E2 : node_history fuel s [IPoll; IRead] = s2) by (cbn; rewrite Ep; reflexivity).
    destruct (receive _ _ _) as [[[x f]|]|x].
    - assert (E3 : node_history fuel s [IPoll; IRead; IFrame x f] = fst (recv_frame fuel s2 x f)).
      { change [IPoll; IRead; IFrame x f] with ([IPoll; IRead] ++ [IFrame x f]).
        unfold Node.node_history in *. rewrite fold_left_app, E2. reflexivity. }
      assert (Hpf : polled_first [IPoll; IRead; IFrame x f]).
      { intros a x' f' b E. destruct a as [|a1 [|a2 [|a3 a]]]; try discriminate.
        - injection E as <- <- <- <- <-. exists []. reflexivity.
        - destruct a; discriminate. }
      destruct (recv_frame fuel s2 x f) as [s3 [e|]]; injection H as <- <- <-;
        exists [IPoll; IRead; IFrame x f]; cbn [fst] in E3; rewrite E3; auto.
    - injection H as <- <- <-. exists [IPoll; IRead]. rewrite E2. cbn. rewrite app_nil_r. repeat split; auto. now apply polled_none.
    - injection H as <- <- <-. exists [IPoll; IRead]. rewrite E2. cbn. rewrite app_nil_r. repeat split; auto. now apply polled_none.
  Qed.

  Lemma loop_history turns dl : forall s got n s' got' r, spin_loop turns fuel dl s got n = (s', got', r) ->
    exists ins, s' = node_history fuel s ins /\ got' = got ++ frames_in ins /\ polled_first ins /\
      (r = Ok tt -> exists d, dl = Some d /\ (0 < n_reads s')%nat /\ d <= clk (pred (n_reads s'))).
  Proof.
    induction turns as [|turns IH]; cbn [Node.spin_loop]; intros s got n s' got' r H.
    { injection H as <- <- <-. exists []. cbn. rewrite app_nil_r. repeat split; auto; [now apply polled_none|discriminate]. }
    cbn [nread] in H. set (s1 := set_reads s _) in *.
    destruct (match dl with Some d => clk (n_reads s) <? d | None => true end) eqn:Eb.
    - destruct (execute_once fuel dl s1 got n) as [[s2 got2] [c|x]] eqn:Eo.
      + apply once_history in Eo. destruct Eo as (ins1 & E1 & E2 & E3 & _).
        destruct (IH _ _ _ _ _ _ H) as (ins2 & F1 & F2 & F3 & F4).
        exists ([IRead] ++ ins1 ++ ins2). repeat split; auto.
        * unfold Node.node_history in *. rewrite !fold_left_app. cbn. fold s1. now rewrite <- E1.
        * rewrite !frames_in_app. cbn. rewrite F2, E2, app_assoc. reflexivity.
        * apply polled_first_app; [now apply polled_none|]. now apply polled_first_app.
      + apply once_history in Eo. destruct Eo as (ins1 & E1 & E2 & E3 & _). injection H as <- <- <-.
        exists ([IRead] ++ ins1). repeat split; auto; try discriminate.
        apply polled_first_app; auto. now apply polled_none.
    - injection H as <- <- <-. exists [IRead]. cbn. rewrite app_nil_r. repeat split; auto; [now apply polled_none|].
      intros _. destruct dl as [d|]; [|discriminate]. exists d. repeat split; lia.
  Qed.

  Lemma spin_waits turns s t s' got r : t <> 0 -> spin turns fuel s (Some t) = (s', got, r) ->
    exists ins, s' = node_history fuel s ins /\ got = frames_in ins /\ polled_first ins /\
      (is_ok r = true -> (0 < n_reads s')%nat /\ clk (n_reads s) + t <= clk (pred (n_reads s'))).
  Proof.
    intros Ht. unfold Node.spin. destruct (Z.eqb_spec t 0); [congruence|]. cbn [nread].
    set (s1 := set_reads s _). intros H.
    assert (Ea : forall ins, node_history fuel s (IRead :: ins) = node_history fuel s1 ins) by reflexivity.
    destruct (execute_once fuel (Some (clk (n_reads s) + t)) s1 [] 0) as [[s2 got2] [c|x]] eqn:Eo.
    - apply once_history in Eo. destruct Eo as (ins1 & E1 & E2 & E3 & _).
      destruct (spin_loop turns fuel (Some (clk (n_reads s) + t)) s2 got2 1) as [[s3 got3] r3] eqn:El.
      apply loop_history in El. destruct El as (ins2 & F1 & F2 & F3 & F4).
      exists (IRead :: ins1 ++ ins2).
      assert (Es : s3 = node_history fuel s (IRead :: ins1 ++ ins2)).
      { rewrite Ea. unfold Node.node_history in *. rewrite fold_left_app. now rewrite <- E1. }
      assert (Eg : got3 = frames_in (IRead :: ins1 ++ ins2)).
      { cbn. rewrite frames_in_app, F2, E2. reflexivity. }
      assert (Ep : polled_first (IRead :: ins1 ++ ins2)).
      { change (IRead :: ins1 ++ ins2) with ([IRead] ++ ins1 ++ ins2).
        apply polled_first_app; [now apply polled_none|]. now apply polled_first_app. }
      destruct r3 as [[]|x]; injection H as <- <- <-; repeat split; auto; try discriminate.
      all: destruct (F4 eq_refl) as (d & Ed & G1 & G2); auto. injection Ed as <-. exact G2.
    - apply once_history in Eo. destruct Eo as (ins1 & E1 & E2 & E3 & _). injection H as <- <- <-.
      exists (IRead :: ins1). repeat split; auto; try discriminate.
      change (IRead :: ins1) with ([IRead] ++ ins1). apply polled_first_app; auto. now apply polled_none.
  Qed.

  Lemma drain_history turns : forall s got n c s' got' r, drain turns fuel s got n c = (s', got', r) ->
    exists ins, s' = node_history fuel s ins /\ got' = got ++ frames_in ins /\
      ins = map (fun p => IFrame (fst p) (snd p)) (frames_in ins) /\
      (forall c', r = Ok c' -> c' = (c + N.of_nat (length (frames_in ins)))%N).
  Proof.
    induction turns as [|turns IH]; cbn [Node.drain]; intros s got n c s' got' r H.
    { injection H as <- <- <-. exists []. cbn. rewrite app_nil_r. repeat split; auto. discriminate. }
    destruct (receive (n_log s) n 0) as [[[x f]|]|e].
    - destruct (recv_frame fuel s x f) as [s1 [e|]] eqn:Er.
      + injection H as <- <- <-. exists [IFrame x f]. cbn. rewrite Er. repeat split; auto. discriminate.
      + destruct (IH _ _ _ _ _ _ _ H) as (ins & E1 & E2 & E3 & E4). exists (IFrame x f :: ins). repeat split.
        * unfold Node.node_history in *. cbn. now rewrite Er.
        * rewrite E2, <- app_assoc. reflexivity.
        * cbn. now rewrite <- E3.
        * intros c' Ec. rewrite (E4 c' Ec). cbn [frames_in length]. lia.
    - injection H as <- <- <-. exists []. cbn. rewrite app_nil_r. repeat split; auto.
      intros c' Ec. injection Ec as <-. lia.
    - injection H as <- <- <-. exists []. cbn. rewrite app_nil_r. repeat split; auto. discriminate.
  Qed.

  Lemma spin_zero turns s s' got r : spin turns fuel s (Some 0) = (s', got, r) ->
    exists ins, s' = node_history fuel s ins /\ got = frames_in ins /\
      (forall c, r = Ok c -> c = N.of_nat (length got) /\
         ins = map (fun p => IFrame (fst p) (snd p)) got ++ [IPoll]).
  Proof.
    unfold Node.spin. cbn [Z.eqb]. intros H.
    destruct (drain turns fuel s [] 0 0) as [[s1 got1] [c|x]] eqn:Ed; apply drain_history in Ed;
      destruct Ed as (ins & E1 & E2 & E3 & E4).
    - assert (E : node_history fuel s (ins ++ [IPoll]) = fst (npoll fuel s1)).
      { unfold Node.node_history in *. rewrite fold_left_app, <- E1. reflexivity. }
      assert (Eg : frames_in (ins ++ [IPoll]) = got1) by (rewrite frames_in_app; cbn; rewrite app_nil_r; auto).
      destruct (npoll fuel s1) as [s2 [d|x]]; injection H as <- <- <-; exists (ins ++ [IPoll]);
        cbn [fst] in E; rewrite E, Eg; repeat split; auto; try discriminate.
      + injection H as <-. rewrite (E4 c eq_refl), E2. cbn. lia.
      + rewrite E2. cbn. now rewrite <- E3.
    - injection H as <- <- <-. exists ins. repeat split; auto; discriminate.
  Qed.

  (** Without a timeout [spin] does not return. *)
  Lemma spin_forever turns s s' got r : spin turns fuel s None = (s', got, r) -> is_ok r = false.
  Proof.
    unfold Node.spin. destruct (execute_once fuel None s [] 0) as [[s2 got2] [c|x]] eqn:Eo.
    2:{ intros H; injection H as <- <- <-. reflexivity. }
    destruct (spin_loop turns fuel None s2 got2 1) as [[s3 got3] r3] eqn:El.
    apply loop_history in El. destruct El as (ins2 & F1 & F2 & F3 & F4).
    destruct r3 as [[]|x]; intros H; injection H as <- <- <-; [|reflexivity].
    destruct (F4 eq_refl) as (d & Ed & _). discriminate.
  Qed.

  (** The count that [spin] returns for a nonzero timeout is that of its first
      turn. *)
  Lemma spin_count turns s t s' got c : t <> 0 -> spin turns fuel s (Some t) = (s', got, Ok c) -> (c <= 1)%N.
  Proof.
    intros Ht. unfold Node.spin. destruct (Z.eqb_spec t 0); [congruence|]. cbn [nread].
    destruct (execute_once _ _ _ [] 0) as [[s2 got2] [c2|x]] eqn:Eo; [|discriminate].
    destruct (spin_loop _ _ _ s2 got2 1) as [[s3 got3] [[]|x]]; [|discriminate].
    intros H. injection H as _ _ <-. unfold Node.execute_once in Eo.
    destruct (npoll _ _) as [s4 [next|x]]; [|discriminate]. cbn [nread] in Eo.
    destruct (receive _ _ _) as [[[x f]|]|x]; [| |discriminate].
    - destruct (recv_frame _ _ _ _) as [s5 [e|]]; [discriminate|]. injection Eo as _ _ <-. lia.
    - injection Eo as _ _ <-. lia.
  Qed.
End Top.

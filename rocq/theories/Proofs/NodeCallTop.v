(** A call of a service of another node, end to end. *)
From Verif.Base Require Import Prelude Bits.
From Verif.Model Require Import Types Codec MsgId Frames TransferManager Sched Node.
From Verif.Spec Require Import CodecSpec MsgIdSpec FrameSpec ReassemblySpec SendingSpec NodeSpec CallSpec.
From Verif.Proofs Require Import MsgIdFacts ReassemblyFacts ManagerFacts TransferTop SchedFacts NodeFacts RequestFacts NodeRequests NodeDispatch NodeTop NodeNet NodeCall.
Local Open Scope Z_scope.

Lemma requests_with_In dest service tid l r : In r (requests_with dest service tid l) <->
  exists h dl, In (ORequest r h tid dl) l /\ h_dest h = Some dest /\ h_dtid h = service.
Proof.
  induction l as [|o l IH].
  - cbn. split; [tauto|]. intros (h & dl & [] & _).
  - assert (X : (exists h dl, In (ORequest r h tid dl) (o :: l) /\ h_dest h = Some dest /\ h_dtid h = service) <->
      (exists h dl, o = ORequest r h tid dl /\ h_dest h = Some dest /\ h_dtid h = service) \/ In r (requests_with dest service tid l)).
    { rewrite IH. cbn. split.
      - intros (h & dl & [E|E] & A); [left|right]; eauto.
      - intros [(h & dl & E & A)|(h & dl & E & A)]; eauto. }
    rewrite X. clear X.
    destruct o; cbn [requests_with]; try (split; [now right|intros [(? & ? & E & _)|E]; [discriminate|auto]]).
    destruct (optN_eqb (h_dest h) (Some dest) && N.eqb (h_dtid h) service && N.eqb tid0 tid) eqn:E.
    + apply andb_prop in E as [E E3]. apply andb_prop in E as [E1 E2]. apply optN_eqb_spec in E1.
      apply N.eqb_eq in E2, E3. subst. cbn. split.
      * intros [->|H]; [left; eauto|auto].
      * intros [(h' & dl & E & _)|H]; auto. injection E as ->. auto.
    + split; [now right|]. intros [(h' & dl & E' & A & B)|H]; auto. injection E'; intros; subst.
      rewrite A, !N.eqb_refl in E. cbn in E. rewrite N.eqb_refl in E. discriminate.
Qed.

Section Top.
  Variable clk : nat -> Z.
  Variable beh : list nobs -> list (nop * bool) * outcome.
  Variable drv : list nobs -> list frame -> option exn.
  Variable status : list nobs -> value.
  Variable status_dt : datatype.
  Variable types : datatypes.
  Variable second : Z.
  Variables (id : option N) (canfd catch : bool) (interval : Z) (info : typeid) (fuel : nat).

  Notation apply_nop := (apply_nop clk drv second).
  Notation recv_transfer := (recv_transfer clk beh drv second).
  Notation recv_frame := (recv_frame clk beh drv types second).
  Notation node_history := (node_history clk beh drv status status_dt types second).
  Notation call_handler := (call_handler clk beh drv second).
  Notation call_handlers := (call_handlers clk beh drv second).
  Notation react := (react clk beh drv second).
  Notation request := (request clk drv second).
  Notation respond := (respond drv).
  Notation send := (send drv).
  Notation after := (started clk beh drv status status_dt types second id canfd catch interval info fuel).

  (** A transfer that was heard completely is received. *)
  Lemma heard_transfer ins sd fs pre f earlier :
    proper types sd -> sent sd fs -> Forall2 same_frame fs (pre ++ [f]) ->
    filter (has_key (sending_key sd)) (heard ins) = earlier ++ pre ->
    exists r m, faithful sd r /\
      let s2 := set_manager (set_reads (after ins) (S (n_reads (after ins)))) m in
      after (ins ++ [IFrame true f]) = fst (recv_transfer fuel s2 r) /\
      n_catch (after ins) = catch.
  Proof.
    intros Hp Hs Hsame Hh.
    destruct (sent_received types sd Hp) as (fs0 & Hs0 & Hrec). rewrite <- (sent_det _ _ _ Hs Hs0) in Hrec. clear fs0 Hs0.
    destruct (Hrec _ Hsame) as (r & Hff & Hfa & _).
    assert (Hone : one_transfer (sending_key sd) (pre ++ [f])).
    { destruct (sent_carries types sd fs Hp Hs) as [body Hc].
      apply (carries_one_transfer _ (s_canfd sd) _ body). eapply carries_same; eassumption. }
    set (s := after ins) in *.
    destruct (manager_history clk beh drv status status_dt types second fuel ins (new_node clk id canfd catch interval info) []) as (arr & Harr & Hm & Hcatch); [reflexivity|].
    change (node_history fuel (new_node clk id canfd catch interval info) ins) with s in Hm, Hcatch. cbn [app] in Hm.
    assert (Hk : transfer_key f = sending_key sd).
    { clear -Hp Hs Hsame. destruct (sent_carries types sd fs Hp Hs) as [body Hc].
      pose proof (carries_one_transfer _ _ _ _ _ (carries_same _ _ _ _ _ _ Hc Hsame)) as Ho.
      destruct Ho as [_ Ho]. apply (Ho (length pre) f). rewrite nth_error_app2, Nat.sub_diag by lia. reflexivity. }
    assert (Hdel : snd (receive_frame (fst (feed new_manager arr)) f (clk (n_reads s))) = Some (pre ++ [f])).
    { apply receive_exact. rewrite Hk. split; auto. exists earlier. unfold frames_with. rewrite Harr, Hh, app_assoc. reflexivity. }
    destruct (receive_frame (fst (feed new_manager arr)) f (clk (n_reads s))) as [m d] eqn:Er. cbn [snd] in Hdel. subst d.
    exists r, m. split; auto. cbv zeta. split; [|exact Hcatch].
    rewrite after_app. fold s. cbn [Node.node_history fold_left apply_input].
    unfold Node.recv_frame. cbn [negb nread]. set (s1 := set_reads s (S (n_reads s))).
    change (n_manager s1) with (n_manager s). rewrite Hm, Er.
    destruct (pre ++ [f]) as [|f0 rest] eqn:Epre; [destruct pre; discriminate|].
    rewrite Hff. reflexivity.
  Qed.

  (** ** The request *)

  Lemma request_effect ins a dt v dest prio timeout fd :
    n_id (after ins) = Some a ->
    snd (request (after ins) dt v dest prio timeout fd) = None ->
    let s0 := after ins in
    let s1 := after (ins ++ [IOp (NRequest dt v dest prio timeout fd)]) in
    exists p c fs tid i dl, asked_priority prio p /\
      let sd := Sending (request_head p a dest (dt_id dt)) tid dt v c in
      (fd = Some c \/ fd = None /\ c = n_canfd s0) /\
      tid = (N.of_nat (length (attempted (dt_id dt, Some dest) (n_log s0))) mod 32)%N /\
      n_log s1 = n_log s0 ++ [OSend (Some (dt_id dt, Some dest)) (s_header sd) tid fs None; ORequest (n_reqs s0) (s_header sd) tid dl] /\
      sent sd fs /\ registers s0 s1 (s_header sd) tid i dl.
  Proof.
    cbv zeta. rewrite after_app. cbn [Node.node_history fold_left apply_input Node.apply_nop].
    intros Hid Hok.
    destruct (ids_ok_history clk beh drv status status_dt types second fuel
      (new_node clk id canfd catch interval info) ins eq_refl eq_refl (dt_id dt, Some dest)) as [_ Hnum].
    change (node_history fuel (new_node clk id canfd catch interval info) ins) with (after ins) in Hnum.
    set (s0 := after ins) in *. unfold current in Hnum.
    unfold Node.request in *. destruct (anonymous s0) eqn:Ea; [discriminate|]. cbn [next_transfer_id] in *.
    set (tid := match dget key_eqb (n_next s0) (dt_id dt, Some dest) with Some t => t | None => 0%N end) in *.
    set (s' := set_next s0 _) in *. change (n_id s') with (n_id s0) in *. rewrite Hid in *.
    unfold Node.send in *. set (c := match fd with Some b => b | None => n_canfd s' end) in *.
    set (h := Header (or_default prio) true true (Some a) (Some dest) 0 None) in *.
    destruct (make_tx h tid dt v c) as [t|x] eqn:Em; [|discriminate].
    destruct (to_frames t) as [[fs padded]|x] eqn:Ef; [|discriminate].
    destruct (send_frames drv (n_log s') [] fs) as [fs' err] eqn:Es.
    destruct err as [x|]; [discriminate|].
    pose proof (send_frames_none _ _ _ _ _ Es) as E'. cbn in E'. subst fs'. cbn [h_priority h_service h_request h_source h_dest h_discriminator h] in *.
    assert (Et : tx_header t = request_head (or_default prio) a dest (dt_id dt) /\
      make_tx (request_head (or_default prio) a dest (dt_id dt)) tid dt v c = Ok t).
    { unfold make_tx in *. cbn in *. destruct (payload_bytes (dt_fields dt) c v); [|discriminate]. cbn in *. injection Em as <-. split; reflexivity. }
    destruct Et as [Eh Em']. rewrite Eh in *.
    destruct (message_id (request_head (or_default prio) a dest (dt_id dt))) as [i|x] eqn:Ei; [|discriminate].
    exists (or_default prio), c, fs, tid, i. eexists. split.
    { unfold asked_priority, or_default. destruct prio as [q|]; auto. destruct (N.eqb q 0); auto. }
    cbv zeta. cbn [s_header]. split.
    { unfold c. destruct fd; [left; reflexivity|right; split; reflexivity]. }
    split; auto. split; [|split].
    - cbn. rewrite <- app_assoc. cbn. reflexivity.
    - exists t, padded. cbn. auto.
    - constructor; cbn; auto; try reflexivity.
      + do 2 eexists. rewrite <- app_assoc. reflexivity.
  Qed.

  (** ** The handler *)

  Lemma none_called n : forall s o i t, (i <= length (handler_list s o) < i + n)%nat ->
    filter (fun hd => accepts hd t) (skipn i (handler_list s o)) = [] -> call_handlers n s o i t = (s, None).
  Proof.
    induction n as [|n IH]; intros s o i t Hl Hf; [lia|]. cbn [Node.call_handlers].
    destruct (nth_error (handler_list s o) i) as [hd|] eqn:En; auto.
    assert (Hi : (S i <= length (handler_list s o))%nat) by (apply nth_error_Some; congruence).
    rewrite (skipn_nth _ _ _ En) in Hf. cbn [filter] in Hf. destruct (accepts hd t); [discriminate|].
    apply IH; auto. lia.
  Qed.

  Lemma one_called n hd t s1 : forall s o i, (i <= length (handler_list s o) < i + n)%nat ->
    filter (fun hd => accepts hd t) (skipn i (handler_list s o)) = [hd] ->
    call_handler s hd t = (s1, None) -> n_lists s1 = n_lists s -> call_handlers n s o i t = (s1, None).
  Proof.
    induction n as [|n IH]; intros s o i Hl Hf Hc Hs; [lia|]. cbn [Node.call_handlers].
    destruct (nth_error (handler_list s o) i) as [hd'|] eqn:En.
    2:{ apply nth_error_None in En. rewrite skipn_all2 in Hf by lia. discriminate. }
    assert (Hi : (S i <= length (handler_list s o))%nat) by (apply nth_error_Some; congruence).
    rewrite (skipn_nth _ _ _ En) in Hf. cbn [filter] in Hf. destruct (accepts hd' t).
    - injection Hf as -> Hf. rewrite Hc.
      assert (Eh : handler_list s1 o = handler_list s o) by (unfold handler_list; now rewrite Hs).
      apply none_called; rewrite Eh; auto. lia.
    - apply IH; auto. lia.
  Qed.

  Lemma send_all log : (forall l fs, drv l fs = None) -> forall rest pre, send_frames drv log pre rest = (pre ++ rest, None).
  Proof.
    intros H. induction rest as [|f rest IH]; intros pre; cbn; [now rewrite app_nil_r|].
    rewrite H, IH, <- app_assoc. reflexivity.
  Qed.

  (** The handlers that a request for a service is given to. *)
  Definition serving (service : N) (hd : handler) : bool :=
    match hd_type hd with None => true | Some ty => typeid_eqb ty (service, true) end.

  Lemma request_answered types' ins sd fs pre f earlier hd p a dest dt answer :
    (forall l fs, drv l fs = None) ->
    n_id (after ins) = Some dest ->
    proper types sd -> sent sd fs -> Forall2 same_frame fs (pre ++ [f]) ->
    filter (has_key (sending_key sd)) (heard ins) = earlier ++ pre ->
    s_header sd = request_head p a dest (dt_id dt) -> s_datatype sd = dt -> dt_service dt = true ->
    (length (handler_list (after ins) (n_cur (after ins))) < fuel)%nat ->
    filter (serving (dt_id dt)) (handler_list (after ins) (n_cur (after ins))) = [hd] ->
    hd_type hd = Some (dt_id dt, true) -> hd_sniff hd = false ->
    (forall q, content (dt_fields dt) (rx_value q) = content (dt_fields dt) (s_value sd) ->
       beh (n_log (after ins) ++ [OHandled hd q]) = ([], Returns (Some (dt, answer (rx_value q))))) ->
    let sd' w := Sending (response_head p a dest (dt_id dt)) (s_tid sd mod 32) dt (answer w) (n_canfd (after ins)) in
    (forall w, content (dt_fields dt) w = content (dt_fields dt) (s_value sd) -> proper types' (sd' w)) ->
    exists q fs', faithful sd q /\ sent (sd' (rx_value q)) fs' /\
      n_log (after (ins ++ [IFrame true f])) = n_log (after ins) ++
        [OHandled hd q; OSend None (response_head p a dest (dt_id dt)) (s_tid sd mod 32) fs' None].
  Proof.
    intros Hd Hid Hp Hs Hsame Hh Ehd Edt Esv Hfuel Hser Hty Hsn Hbeh sd' Hp'.
    destruct (heard_transfer ins sd fs pre f earlier Hp Hs Hsame Hh) as (q & m & Hq & Ha & _). cbv zeta in Ha.
    set (s := after ins) in *. set (s2 := set_manager _ m) in Ha.
    assert (Hc : content (dt_fields dt) (rx_value q) = content (dt_fields dt) (s_value sd)).
    { pose proof (f_content _ _ Hq) as C. rewrite Ehd, Edt in C. exact C. }
    destruct (sent_received types' _ (Hp' (rx_value q) Hc)) as (fs' & Hs' & _).
    exists q, fs'. split; auto. split; auto. rewrite Ha.
    assert (Hacc : forall l, filter (fun hd => accepts hd q) l = filter (serving (dt_id dt)) l).
    { intros l. apply filter_ext. intros x. unfold accepts, serving, type_of. rewrite (f_datatype _ _ Hq), Edt, Esv. reflexivity. }
    assert (Hrt : recv_transfer fuel s2 q = call_handlers fuel s2 (n_cur s2) 0 q).
    { unfold Node.recv_transfer. rewrite (f_header _ _ Hq), Ehd. change (n_id s2) with (n_id s). rewrite Hid.
      cbn [request_head h_service h_request h_dest negb andb orb].
      assert (Eo : optN_eqb (Some dest) (Some dest) = true) by (apply optN_eqb_spec; reflexivity). rewrite Eo.
      rewrite orb_true_r. reflexivity. }
    set (s3 := see (see s2 (OHandled hd q)) (OSend None (response_head p a dest (dt_id dt)) (s_tid sd mod 32) fs' None)).
    assert (Hch : call_handler s2 hd q = (s3, None)).
    { unfold Node.call_handler. rewrite Hty, Hsn. unfold Node.react. cbn [n_log see]. change (n_log s2) with (n_log s). rewrite (Hbeh _ Hc). cbn [Node.apply_nops andb negb].
      rewrite (f_header _ _ Hq), (f_tid _ _ Hq), Ehd. cbn [request_head h_request h_source h_priority negb].
      unfold Node.respond.
      assert (Han : anonymous (see s2 (OHandled hd q)) = false).
      { unfold anonymous. cbn. rewrite Hid. pose proof (p_legal _ _ Hp) as L. rewrite Ehd in L. inversion L; subst. destruct (N.eqb_spec dest 0); auto. lia. }
      rewrite Han. cbn [n_id see]. change (n_id s2) with (n_id s). rewrite Hid.
      unfold Node.send. change (n_canfd (see s2 (OHandled hd q))) with (n_canfd s).
      destruct Hs' as (t & padded & Em & Ef). cbn [s_header s_tid s_datatype s_value s_canfd sd'] in Em.
      assert (Em' : make_tx (Header p true false (Some dest) (Some a) 0 None) (s_tid sd mod 32) dt (answer (rx_value q)) (n_canfd s) = Ok t).
      { rewrite <- Em. reflexivity. }
      rewrite Em', Ef, (send_all _ Hd). cbn [app]. reflexivity. }
    rewrite Hrt.
    rewrite (one_called fuel hd q s3); auto.
    - cbn. rewrite <- app_assoc. reflexivity.
    - change (0 <= length (handler_list s (n_cur s)) < 0 + fuel)%nat. lia.
    - cbn [skipn]. rewrite Hacc. exact Hser.
  Qed.

  (** ** The response *)

  Lemma find_first t q : forall l k, In (k, q) l -> is_response_to t q = true -> exists k', find_request t l = Some k'.
  Proof.
    induction l as [|[k' q'] l IH]; cbn; intros k Hk Ht; [destruct Hk|]. destruct Hk as [E|Hi].
    - injection E as -> ->. rewrite Ht. eauto.
    - destruct (is_response_to t q'); eauto.
  Qed.

  Lemma dget_In {A} (d : list (key * A)) k v : dget key_eqb d k = Some v -> In (k, v) d.
  Proof.
    induction d as [|[k' v'] d IH]; cbn; [discriminate|]. destruct (key_eqb k k') eqn:E; auto.
    intros H. injection H as ->. apply key_eqb_spec in E. subst. auto.
  Qed.

  Lemma after_W ins : W (after ins).
  Proof. apply W_history; [apply GS_new|apply W_new]. Qed.

  Lemma response_received ins a dt v dest prio timeout fd ins2 sd fs pre f earlier p :
    calm beh -> n_id (after ins) = Some a -> (a < 128)%N ->
    snd (request (after ins) dt v dest prio timeout fd) = None ->
    let s0 := after ins in
    let ins1 := ins ++ [IOp (NRequest dt v dest prio timeout fd)] in
    let tid := (N.of_nat (length (attempted (dt_id dt, Some dest) (n_log s0))) mod 32)%N in
    let s2 := after (ins1 ++ ins2) in
    (forall r, In r (requests_with dest (dt_id dt) tid (n_log s0)) -> done r (n_log s0)) ->
    (forall r, In r (requests_with dest (dt_id dt) tid (n_log s2)) -> (r <= n_reqs s0)%nat) ->
    ~ done (n_reqs s0) (n_log s2) ->
    proper types sd -> sent sd fs -> Forall2 same_frame fs (pre ++ [f]) ->
    filter (has_key (sending_key sd)) (heard (ins1 ++ ins2)) = earlier ++ pre ->
    s_header sd = response_head p a dest (dt_id dt) -> (s_tid sd mod 32 = tid)%N ->
    exists t l, faithful sd t /\
      n_log (after ((ins1 ++ ins2) ++ [IFrame true f])) = n_log s2 ++ OResponse (n_reqs s0) t :: l.
  Proof.
    intros Hcalm Hid Ha Hok s0 ins1 tid s2 Hbefore Hlater Hnot Hp Hs Hsame Hh Ehd Etid.
    destruct (request_effect ins a dt v dest prio timeout fd Hid Hok) as (p1 & c & fs1 & tid1 & i & dl & _ & _ & Et & Elog & _ & Hreg).
    cbv zeta in Et, Elog, Hreg. cbn [s_header] in *. fold s0 tid in Et. subst tid1. fold s0 ins1 in Elog, Hreg.
    set (h := request_head p1 a dest (dt_id dt)) in *.
    set (s1 := after ins1) in *. set (r0 := n_reqs s0) in *.
    assert (HJ : J a r0 h tid i (n_log s1) s1).
    { destruct Hreg as [_ B C D F G A Q1 Q2]. constructor.
      - rewrite G. split; [exact Hid|]. rewrite (anon_id _ _ G). exact A.
      - exists []. rewrite app_nil_r. split; auto. intros ? ? ? ? [].
      - rewrite F. unfold r0. lia.
      - right; right. unfold waiting. rewrite B, C, D. rewrite !(dget_dset_same _ key_eqb_spec).
        split; [eauto|]. split; auto. intros e r Hi Ea. apply push_In in Hi. destruct Hi as [->|Hi]; [cbn in Ea; injection Ea; intros; symmetry; assumption|].
        exfalso. destruct (w_ev _ (after_W ins) e r _ Hi Ea) as (h' & tid' & dl' & i' & Hin & Ei' & Ek).
        injection Ek as <- <-.
        destruct (w_log _ (after_W ins) _ _ _ _ Hin) as (_ & (a' & Ea' & Hrh) & _ & Hlt).
        assert (a' = a) by congruence. subst a'.
        destruct (key_session a h h' i Ha) as [S1 S2]; auto; [repeat split|].
        assert (Hdn : done r (n_log s0)).
        { apply Hbefore. apply requests_with_In. exists h', dl'. split; auto. }
        destruct (g_one _ _ _ _ _ _ _ (after_GS clk beh drv status status_dt types second id canfd catch interval info fuel ins) r Hlt) as [[X Y]|(X & Y & Z)];
          fold s0 in X, Y; unfold done in Hdn.
        + assert (Hz : pending r (n_queue s0) = 0%nat) by lia. exact (proj1 (pending_zero r _) Hz e _ Hi Ea).
        + exact (proj1 (pending_zero r _) Z e _ Hi Ea). }
    assert (HJ2 : J a r0 h tid i (n_log s1) s2).
    { unfold s2. rewrite after_app. apply J_history; auto; [repeat split|apply (r_key _ _ _ _ _ _ Hreg)|apply after_GS]. }
    assert (Hw : waiting r0 h tid i s2).
    { destruct (j_state _ _ _ _ _ _ _ HJ2) as [(r & h' & dl' & X & Y & Z1 & Z2)|[X|X]]; auto.
      - exfalso. assert (r <= r0)%nat; [|lia]. apply Hlater. apply requests_with_In. exists h', dl'. auto.
      - destruct (Hnot X). }
    destruct Hw as ((ev & HC) & HR & _).
    destruct (heard_transfer (ins1 ++ ins2) sd fs pre f earlier Hp Hs Hsame Hh) as (t & m & Hq & Haf & _). cbv zeta in Haf.
    fold s2 in Haf. set (s3 := set_manager _ m) in Haf.
    destruct (K_history clk beh drv status status_dt types second fuel _ (ins1 ++ ins2) Hcalm (new_K clk id canfd catch interval info)) as (HG & HK1 & HK2).
    change (node_history fuel (new_node clk id canfd catch interval info) (ins1 ++ ins2)) with s2 in HG, HK1, HK2.
    assert (Hid2 : n_id s2 = Some a) by apply (j_id _ _ _ _ _ _ _ HJ2).
    assert (Hresp : is_response_to t (h, tid) = true).
    { unfold is_response_to. rewrite (f_header _ _ Hq), (f_tid _ _ Hq), Ehd, Etid. cbn. rewrite !N.eqb_refl. reflexivity. }
    destruct (find_first t (h, tid) _ _ (dget_In _ _ _ HR) Hresp) as (k1 & Hf1).
    destruct (find_request_in _ _ _ (g_ndR _ _ _ _ _ _ _ HG) Hf1) as ([h1 tid1] & HR1 & Hm1).
    apply is_response_to_matches in Hm1. cbn [fst snd] in Hm1.
    destruct (dget key_eqb (n_callbacks s2) k1) as [[r1 ev1]|] eqn:HC1.
    2:{ apply (g_same _ _ _ _ _ _ _ HG) in HC1. congruence. }
    assert (r1 = r0).
    { destruct (g_ent _ _ _ _ _ _ _ HG _ _ _ HC1) as (_ & _ & Ht0 & _ & _ & h2 & tid2 & dl2 & HR2 & Hin2).
      assert (h2 = h1 /\ tid2 = tid1) by (split; congruence). destruct H as [-> ->].
      destruct (HK2 _ _ _ HC1) as [Hr0|Hr0]; [|discriminate].
      destruct Hm1 as (_ & _ & M3 & M4 & M5 & M6). rewrite (f_header _ _ Hq), Ehd in M3, M5. rewrite (f_tid _ _ Hq), Etid in M6. cbn in M3, M5. subst tid1.
      assert (Hin' : In r1 (requests_with dest (dt_id dt) tid (n_log s2))).
      { apply requests_with_In. exists h1, dl2. auto. }
      specialize (Hlater _ Hin').
      destruct (Nat.eq_dec r1 r0) as [|Hne]; auto. exfalso.
      destruct (j_log _ _ _ _ _ _ _ HJ2) as (l2 & El2 & Hl2).
      assert (Hin0 : In (ORequest r1 h1 tid dl2) (n_log s0)).
      { rewrite El2, Elog in Hin2. apply in_app_or in Hin2. destruct Hin2 as [Hin2|Hin2].
        - apply in_app_or in Hin2. destruct Hin2 as [Hin2|[Hin2|[Hin2|[]]]]; auto; [discriminate|]. injection Hin2; intros; congruence.
        - specialize (Hl2 _ _ _ _ Hin2). lia. }
      assert (Hdn : done r1 (n_log s0)).
      { apply Hbefore. apply requests_with_In. exists h1, dl2. auto. }
      unfold done in Hdn. rewrite El2, Elog, !responses_app in Hr0. rewrite El2, Elog, !timeouts_app in Ht0. lia. }
    subst r1.
    assert (k1 = (i, Some tid)) by (eapply (g_inj _ _ _ _ _ _ _ HG); eauto). subst k1.
    exists t.
    assert (Hlog : exists l, n_log (fst (recv_transfer fuel s3 t)) = (n_log s2 ++ [OResponse r0 t]) ++ l).
    { unfold Node.recv_transfer. rewrite (f_header _ _ Hq), Ehd. change (n_id s3) with (n_id s2). rewrite Hid2.
      cbn [response_head h_service h_request h_dest negb andb].
      assert (Eo : optN_eqb (Some a) (Some a) = true) by (apply optN_eqb_spec; reflexivity). rewrite Eo.
      change (n_requests s3) with (n_requests s2). rewrite Hf1. change (n_callbacks s3) with (n_callbacks s2). rewrite HC1.
      fold (called s3 r0 ev1 t).
      destruct (log_react clk beh drv second (n_log s2 ++ [OResponse r0 t]) (called s3 r0 ev1 t)) as (l' & El).
      { exists []. rewrite app_nil_r. rewrite log_called. reflexivity. }
      exists l'. destruct (react (called s3 r0 ev1 t)) as [s4 [y|x]]; cbn [fst] in *; auto.
      destruct (negb _); auto. destruct (negb _); auto. }
    destruct Hlog as (l & Hlog). exists l. split; auto. rewrite Haf, Hlog, <- app_assoc. reflexivity.
  Qed.
End Top.

Lemma service_call : forall A B insA insA2 insB dt v dest a prio timeout fd hd answer p
    fs preB fB earlierB fs' preA fA earlierA,
  let s0 := ran A insA in
  let call := insA ++ [IOp (NRequest dt v dest prio timeout fd)] in
  let s1 := ran A call in
  let s2 := ran A (call ++ insA2) in
  let s3 := ran A ((call ++ insA2) ++ [IFrame true fA]) in
  let b0 := ran B insB in
  let b1 := ran B (insB ++ [IFrame true fB]) in
  let tid := (N.of_nat (length (attempted (dt_id dt, Some dest) (n_log s0))) mod 32)%N in
  let req := request_head p a dest (dt_id dt) in
  let rsp := response_head p a dest (dt_id dt) in
  callable A B dt a dest p v answer -> asked_priority prio p ->
  (* the caller *)
  calm (st_beh A) -> n_id s0 = Some a ->
  snd (request (st_clk A) (st_drv A) (st_second A) s0 dt v dest prio timeout fd) = None ->
  bus (n_log s1) = bus (n_log s0) ++ fs ->
  (* the callee *)
  (forall l fs, st_drv B l fs = None) -> n_id b0 = Some dest ->
  Forall2 same_frame fs (preB ++ [fB]) ->
  filter (has_key (can_id req, Some tid)) (heard insB) = earlierB ++ preB ->
  filter (serves (dt_id dt)) (handlers_of b0) = [hd] -> hd_type hd = Some (dt_id dt, true) -> hd_sniff hd = false ->
  (length (handlers_of b0) < st_fuel B)%nat ->
  (forall q, content (dt_fields dt) (rx_value q) = content (dt_fields dt) v ->
     st_beh B (n_log b0 ++ [OHandled hd q]) = ([], Returns (Some (dt, answer (rx_value q))))) ->
  bus (n_log b1) = bus (n_log b0) ++ fs' ->
  (* the caller again *)
  Forall2 same_frame fs' (preA ++ [fA]) ->
  filter (has_key (can_id rsp, Some tid)) (heard (call ++ insA2)) = earlierA ++ preA ->
  (forall r, In r (requests_with dest (dt_id dt) tid (n_log s0)) -> done r (n_log s0)) ->
  (forall r, In r (requests_with dest (dt_id dt) tid (n_log s2)) -> (r <= n_reqs s0)%nat) ->
  ~ done (n_reqs s0) (n_log s2) ->
  exists q t l,
    handled (n_log b1) = handled (n_log b0) ++ [(hd, q)] /\
    content (dt_fields dt) (rx_value q) = content (dt_fields dt) v /\
    n_log s3 = n_log s2 ++ OResponse (n_reqs s0) t :: l /\
    content (dt_response dt) (rx_value t) = content (dt_response dt) (answer (rx_value q)) /\
    responses (n_reqs s0) (n_log s3) = 1%nat /\ timeouts (n_reqs s0) (n_log s3) = 0%nat.
Proof.
  intros A B insA insA2 insB dt v dest a prio timeout fd hd answer p fs preB fB earlierB fs' preA fA earlierA
    s0 call s1 s2 s3 b0 b1 tid req rsp HC Hprio Hcalm Hid Hok Hbus Hdrv Hidb HsB HhB Hser Hty Hsn Hfu Hbeh Hbusb HsA HhA Hbef Hlat Hnot.
  destruct HC as [K1 K2 K3 K4 K5 K6 K7 K8 K9 (E1 & E2 & E3)].
  destruct (request_effect (st_clk A) (st_beh A) (st_drv A) (st_status A) (st_status_dt A) (st_types A) (st_second A)
    (st_id A) (st_canfd A) (st_catch A) (st_interval A) (st_info A) (st_fuel A) insA a dt v dest prio timeout fd Hid Hok)
    as (p1 & c & fs1 & tid1 & i & dl & Hp1 & _ & Et & Elog & Hsent & _).
  cbv zeta in Et, Elog, Hsent. cbn [s_header] in Elog.
  assert (p1 = p).
  { revert Hprio Hp1. unfold asked_priority. destruct prio as [x|]; [destruct (N.eqb x 0)|]; congruence. }
  subst p1. change (tid1 = tid) in Et. subst tid1. change (n_log s1 = n_log s0 ++ [OSend (Some (dt_id dt, Some dest)) req tid fs1 None; ORequest (n_reqs s0) req tid dl]) in Elog.
  assert (fs1 = fs).
  { rewrite Elog, bus_app in Hbus. apply app_inv_head in Hbus. cbn in Hbus. now rewrite app_nil_r in Hbus. }
  subst fs1. set (sd := Sending (request_head p a dest (dt_id dt)) tid dt v c) in *.
  assert (Htid : (tid mod 32 = tid)%N) by (unfold tid; apply N.mod_mod; discriminate).
  assert (Hpsd : proper (st_types B) sd).
  { constructor; cbn; auto. constructor; lia. }
  destruct (request_answered (st_clk B) (st_beh B) (st_drv B) (st_status B) (st_status_dt B) (st_types B) (st_second B)
    (st_id B) (st_canfd B) (st_catch B) (st_interval B) (st_info B) (st_fuel B) (st_types A) insB sd fs preB fB earlierB hd p a dest dt answer)
    as (q & fs1 & Hq & Hs1 & Hlog1); auto.
  { unfold sending_key. cbn [sd s_tid]. rewrite Htid. exact HhB. }
  { rewrite <- Hser. apply filter_ext. intros x. unfold serving, serves. destruct (hd_type x) as [[y z]|]; auto. cbn. destruct z; reflexivity. }
  { intros w Cw. cbn [sd s_tid]. constructor; cbn; auto. constructor; lia. }
  cbn [sd s_tid] in Hs1, Hlog1. rewrite Htid in Hs1, Hlog1.
  change (n_log b1 = n_log b0 ++ [OHandled hd q; OSend None rsp tid fs1 None]) in Hlog1.
  assert (fs1 = fs').
  { rewrite Hlog1, bus_app in Hbusb. apply app_inv_head in Hbusb. cbn in Hbusb. now rewrite app_nil_r in Hbusb. }
  subst fs1. set (sd' := Sending (response_head p a dest (dt_id dt)) tid dt (answer (rx_value q)) _) in Hs1.
  assert (Hpsd' : proper (st_types A) sd').
  { constructor; cbn; auto; try (apply K9; exact (f_content _ _ Hq)). constructor; lia. }
  destruct (response_received (st_clk A) (st_beh A) (st_drv A) (st_status A) (st_status_dt A) (st_types A) (st_second A)
    (st_id A) (st_canfd A) (st_catch A) (st_interval A) (st_info A) (st_fuel A) insA a dt v dest prio timeout fd insA2 sd' fs' preA fA earlierA p)
    as (t & l & Ht & Hlog3); auto.
  { lia. }
  { unfold sending_key. cbn [sd' s_tid]. rewrite Htid. exact HhA. }
  exists q, t, l. change (n_log s3 = n_log s2 ++ OResponse (n_reqs s0) t :: l) in Hlog3.
  split. { rewrite Hlog1, handled_app. reflexivity. }
  split. { exact (f_content _ _ Hq). }
  split; auto. split. { exact (f_content _ _ Ht). }
  pose proof (at_most_once (st_clk A) (st_beh A) (st_drv A) (st_status A) (st_status_dt A) (st_types A) (st_second A)
    (st_id A) (st_canfd A) (st_catch A) (st_interval A) (st_info A) (st_fuel A) ((call ++ insA2) ++ [IFrame true fA]) (n_reqs s0) Hcalm) as Hm.
  change (started _ _ _ _ _ _ _ _ _ _ _ _ _ _) with s3 in Hm.
  rewrite Hlog3 in *. rewrite responses_app, timeouts_app in *. cbn [responses timeouts] in *. rewrite Nat.eqb_refl in *. lia.
Qed.

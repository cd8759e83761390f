(** Frames of transfers that cannot be decoded are, to a node, like readings of
    the clock. *)
From Verif.Base Require Import Prelude Bits.
From Verif.Model Require Import BitCodec Types Codec MsgId Frames TransferManager Sched Node.
From Verif.Spec Require Import MsgIdSpec NodeSpec NoiseSpec.
From Verif.Proofs Require Import MsgIdFacts ManagerFacts NodeFacts NodeTop.
Local Open Scope Z_scope.

Section Noise.
  Variable clk : nat -> Z.
  Variable beh : list nobs -> list (nop * bool) * outcome.
  Variable drv : list nobs -> list frame -> option exn.
  Variable status : list nobs -> value.
  Variable status_dt : datatype.
  Variable types : datatypes.
  Variable second : Z.

  Definition lift {A} (m : manager) (p : node * A) : node * A := (set_manager (fst p) m, snd p).
  Lemma lift_eq {A} m (s : node) (r : A) : lift m (s, r) = (set_manager s m, r).
  Proof. reflexivity. Qed.

  Lemma send_lift m s session h tid dt v canfd :
    send drv (set_manager s m) session h tid dt v canfd = lift m (send drv s session h tid dt v canfd).
  Proof.
    unfold send. cbn [n_canfd set_manager n_log]. set (c := match canfd with Some b => b | None => n_canfd s end).
    destruct (make_tx h tid dt v c) as [t|x]; [|reflexivity].
    destruct (to_frames t) as [[fs y]|x]; [|reflexivity].
    destruct (send_frames drv (n_log s) [] fs) as [sent err]. reflexivity.
  Qed.
  Lemma request_lift m s dt v dest prio timeout canfd :
    request clk drv second (set_manager s m) dt v dest prio timeout canfd = lift m (request clk drv second s dt v dest prio timeout canfd).
  Proof.
    unfold request. change (anonymous (set_manager s m)) with (anonymous s). destruct (anonymous s); [reflexivity|].
    unfold next_transfer_id. change (n_next (set_manager s m)) with (n_next s).
    set (tid := match dget key_eqb (n_next s) (dt_id dt, Some dest) with Some t => t | None => 0%N end).
    change (set_next (set_manager s m) ?x) with (set_manager (set_next s x) m).
    set (s1 := set_next s _). change (n_id (set_manager s1 m)) with (n_id s1). rewrite send_lift.
    destruct (send drv s1 _ _ tid dt v canfd) as [s2 [t|x]]; cbn [lift fst snd]; [|reflexivity].
    destruct (message_id (tx_header t)); reflexivity.
  Qed.
  Lemma broadcast_lift m s dt v prio canfd :
    broadcast drv (set_manager s m) dt v prio canfd = lift m (broadcast drv s dt v prio canfd).
  Proof.
    unfold broadcast. change (anonymous (set_manager s m)) with (anonymous s). destruct (anonymous s); [reflexivity|].
    unfold next_transfer_id. change (n_next (set_manager s m)) with (n_next s).
    set (tid := match dget key_eqb (n_next s) (dt_id dt, None) with Some t => t | None => 0%N end).
    change (set_next (set_manager s m) ?x) with (set_manager (set_next s x) m).
    set (s1 := set_next s _). change (n_id (set_manager s1 m)) with (n_id s1). rewrite send_lift.
    destruct (send drv s1 _ _ tid dt v canfd) as [s2 [t|x]]; reflexivity.
  Qed.
  Lemma respond_lift m s dt v dest tid prio canfd :
    respond drv (set_manager s m) dt v dest tid prio canfd = lift m (respond drv s dt v dest tid prio canfd).
  Proof.
    unfold respond. change (anonymous (set_manager s m)) with (anonymous s). destruct (anonymous s); [reflexivity|].
    change (n_id (set_manager s m)) with (n_id s). rewrite send_lift.
    destruct (send drv s _ _ tid dt v canfd) as [s2 [t|x]]; reflexivity.
  Qed.
  Lemma nop_lift m s op : apply_nop clk drv second (set_manager s m) op = lift m (apply_nop clk drv second s op).
  Proof.
    destruct op; cbn [apply_nop].
    - apply request_lift.
    - apply broadcast_lift.
    - apply respond_lift.
    - reflexivity.
    - reflexivity.
    - change (n_holders (set_manager s m)) with (n_holders s). destruct (dget Nat.eqb (n_holders s) h); [|reflexivity].
      change (n_queue (set_manager s m)) with (n_queue s). destruct (cancel n (n_queue s)); reflexivity.
    - reflexivity.
    - change (handler_list (set_manager s m) ?c) with (handler_list s c).
      change (n_cur (set_manager s m)) with (n_cur s). destruct (remove_entry i (handler_list s (n_cur s))); reflexivity.
    - reflexivity.
    - unfold set_node_id. change (anonymous (set_manager s m)) with (anonymous s). destruct (anonymous s); [|reflexivity].
      destruct ((1 <=? v) && (v <=? 127)); reflexivity.
    - reflexivity.
  Qed.
  Lemma nops_lift m ops : forall s, apply_nops clk drv second (set_manager s m) ops = lift m (apply_nops clk drv second s ops).
  Proof.
    induction ops as [|[op c] ops IH]; intros s; [reflexivity|]. cbn [apply_nops]. rewrite nop_lift.
    destruct (apply_nop clk drv second s op) as [s1 [x|]]; cbn [lift fst snd]; [destruct c; [apply IH|reflexivity]|apply IH].
  Qed.
  Lemma react_lift m s : react clk beh drv second (set_manager s m) = lift m (react clk beh drv second s).
  Proof.
    unfold react. change (n_log (set_manager s m)) with (n_log s). destruct (beh (n_log s)) as [ops out].
    rewrite nops_lift. destruct (apply_nops clk drv second s ops) as [s1 [x|]]; reflexivity.
  Qed.
  Lemma call_handler_lift m s hd t : call_handler clk beh drv second (set_manager s m) hd t = lift m (call_handler clk beh drv second s hd t).
  Proof.
    unfold call_handler. change (see (set_manager s m) ?o) with (set_manager (see s o) m). rewrite react_lift.
    destruct (react clk beh drv second (see s (OHandled hd t))) as [s1 [r|x]]; cbn [lift fst snd]; [|reflexivity].
    destruct (match hd_type hd with Some (_, k) => k | None => false end && negb (hd_sniff hd)).
    - destruct (negb (h_request (rx_header t))); [reflexivity|]. destruct r as [[dt v]|]; [apply respond_lift|reflexivity].
    - destruct r; reflexivity.
  Qed.
  Lemma call_handlers_lift m fuel : forall s o i t,
    call_handlers clk beh drv second fuel (set_manager s m) o i t = lift m (call_handlers clk beh drv second fuel s o i t).
  Proof.
    induction fuel as [|fuel IH]; intros s o i t; [reflexivity|]. cbn [call_handlers].
    change (handler_list (set_manager s m) o) with (handler_list s o).
    destruct (nth_error (handler_list s o) i) as [hd|]; [|reflexivity]. destruct (accepts hd t); [|apply IH].
    rewrite call_handler_lift. destruct (call_handler clk beh drv second s hd t) as [s1 [x|]]; cbn [lift fst snd]; [|apply IH].
    change (n_catch (set_manager s1 m)) with (n_catch s1). destruct (n_catch s1); [apply IH|reflexivity].
  Qed.
  Lemma recv_transfer_lift m fuel s t :
    recv_transfer clk beh drv second fuel (set_manager s m) t = lift m (recv_transfer clk beh drv second fuel s t).
  Proof.
    unfold recv_transfer. change (n_id (set_manager s m)) with (n_id s). change (sniffing (set_manager s m) t) with (sniffing s t).
    destruct (h_service (rx_header t) && negb (h_request (rx_header t)) && optN_eqb (h_dest (rx_header t)) (n_id s)).
    - change (n_requests (set_manager s m)) with (n_requests s). destruct (find_request t (n_requests s)) as [k|]; [|reflexivity].
      change (n_callbacks (set_manager s m)) with (n_callbacks s).
      destruct (dget key_eqb (n_callbacks s) k) as [[r ev]|]; [|reflexivity].
      change (n_queue (set_manager s m)) with (n_queue s).
      set (s1 := match cancel ev (n_queue s) with Some q => set_queue s q (n_seq s) | None => s end).
      replace (match cancel ev (n_queue s) with Some q => set_queue (set_manager s m) q (n_seq (set_manager s m)) | None => set_manager s m end)
        with (set_manager s1 m) by (unfold s1; destruct (cancel ev (n_queue s)); reflexivity).
      change (see (set_manager s1 m) ?o) with (set_manager (see s1 o) m). rewrite react_lift.
      destruct (react clk beh drv second (see s1 (OResponse r t))) as [s2 [x|x]]; cbn [lift fst snd]; [|reflexivity].
      change (n_requests (set_manager s2 m)) with (n_requests s2). change (n_callbacks (set_manager s2 m)) with (n_callbacks s2).
      destruct (negb (dmem key_eqb (n_requests s2) k)); [reflexivity|]. destruct (negb (dmem key_eqb (n_callbacks s2) k)); reflexivity.
    - destruct (negb (h_service (rx_header t)) || sniffing s t || optN_eqb (h_dest (rx_header t)) (n_id s)); [|reflexivity].
      change (n_cur (set_manager s m)) with (n_cur s). apply call_handlers_lift.
  Qed.
  Lemma nexec_lift m e now s :
    nexec clk beh drv status status_dt second e now (set_manager s m) = lift m (nexec clk beh drv status status_dt second e now s).
  Proof.
    unfold nexec. destruct (ev_act e) as [p|h|h p|r k].
    - change (nenter (set_manager s m) ?t ?pr ?a) with (set_manager (nenter s t pr a) m).
      set (s1 := nenter s _ _ _). change (anonymous (set_manager s1 m)) with (anonymous s1).
      change (n_log (set_manager s1 m)) with (n_log s1). destruct (anonymous s1); [reflexivity|]. apply broadcast_lift.
    - change (see (set_manager s m) ?o) with (set_manager (see s o) m). rewrite react_lift.
      destruct (react clk beh drv second (see s (OTask h now))). reflexivity.
    - cbv zeta. change (nenter (set_manager s m) ?t ?pr ?a) with (set_manager (nenter s t pr a) m).
      set (s1 := nenter s _ _ _). change (n_seq (set_manager s m)) with (n_seq s).
      change (n_holders (set_manager s1 m)) with (n_holders s1). change (n_tasks (set_manager s1 m)) with (n_tasks s1).
      change (set_holders (set_manager s1 m) ?x ?y) with (set_manager (set_holders s1 x y) m).
      set (s2 := set_holders s1 _ _). change (see (set_manager s2 m) ?o) with (set_manager (see s2 o) m). rewrite react_lift.
      destruct (react clk beh drv second (see s2 (OTask h now))). reflexivity.
    - cbv zeta. change (n_requests (set_manager s m)) with (n_requests s). change (n_callbacks (set_manager s m)) with (n_callbacks s).
      change (set_pending (set_manager s m) ?x ?y) with (set_manager (set_pending s x y) m).
      set (s2 := set_pending s _ _). change (see (set_manager s2 m) ?o) with (set_manager (see s2 o) m). rewrite react_lift.
      destruct (react clk beh drv second (see s2 (OTimeout r now))). reflexivity.
  Qed.
  Lemma run_lift m fuel : forall s,
    run n_queue npop (nread clk) (nexec clk beh drv status status_dt second) fuel (set_manager s m) =
    lift m (run n_queue npop (nread clk) (nexec clk beh drv status status_dt second) fuel s).
  Proof.
    induction fuel as [|fuel IH]; intros s; [reflexivity|]. cbn [run].
    change (n_queue (set_manager s m)) with (n_queue s). destruct (n_queue s) as [|e q]; [reflexivity|].
    unfold nread at 1 3. change (n_reads (set_manager s m)) with (n_reads s).
    change (set_reads (set_manager s m) ?x) with (set_manager (set_reads s x) m).
    destruct (clk (n_reads s) <? ev_time e); [reflexivity|].
    change (npop (set_manager ?a m)) with (set_manager (npop a) m). rewrite nexec_lift.
    destruct (nexec clk beh drv status status_dt second e (clk (n_reads s)) (npop (set_reads s (S (n_reads s))))) as [s1 [x|]];
      cbn [lift fst snd]; [reflexivity|]. apply IH.
  Qed.
  Lemma npoll_lift m fuel s :
    npoll clk beh drv status status_dt second fuel (set_manager s m) = lift m (npoll clk beh drv status status_dt second fuel s).
  Proof.
    unfold npoll. rewrite run_lift.
    destruct (run n_queue npop (nread clk) (nexec clk beh drv status status_dt second) fuel s) as [s1 []]; reflexivity.
  Qed.

  (** ** Managers that differ in noise *)

  Variable noise : N -> bool.
  Variable heard : frame -> Prop.
  Hypothesis hopeless : forall i fs, noise i = true -> fs <> [] -> Forall (fun f => f_id f = i /\ heard f) fs ->
    exists x, from_frames types fs = Err x.

  Definition agree (m m' : manager) : Prop :=
    (forall k, noise (fst k) = false -> dget key_eqb (m_active m) k = dget key_eqb (m_active m') k) /\
    (forall k fs, dget key_eqb (m_active m) k = Some fs -> Forall (fun f => f_id f = fst k /\ heard f) fs).
  Definition near (s s' : node) : Prop := exists m, s = set_manager s' m /\ agree m (n_manager s').

  Lemma receive_ids m f now : heard f -> (forall k fs, dget key_eqb (m_active m) k = Some fs -> Forall (fun f => f_id f = fst k /\ heard f) fs) ->
    NoDup (map fst (m_active m)) ->
    let '(m', d) := receive_frame m f now in
    (forall k fs, dget key_eqb (m_active m') k = Some fs -> Forall (fun f => f_id f = fst k /\ heard f) fs) /\
    NoDup (map fst (m_active m')) /\
    match d with Some fs => fs <> [] /\ Forall (fun g => f_id g = f_id f /\ heard g) fs | None => True end.
  Proof.
    intros Hf I ND. unfold receive_frame. set (k := transfer_key f).
    destruct (dmem key_eqb (m_active m) k || start_of_transfer f); [|auto].
    set (active := if start_of_transfer f then dset key_eqb (m_active m) k [] else m_active m).
    assert (ND1 : NoDup (map fst active)) by (unfold active; destruct (start_of_transfer f); [apply dset_nodup; [apply key_eqb_spec|]|]; exact ND).
    assert (I1 : forall k fs, dget key_eqb active k = Some fs -> Forall (fun f => f_id f = fst k /\ heard f) fs).
    { intros k' fs G. unfold active in G. destruct (start_of_transfer f); [|apply I, G].
      destruct (key_eqb k k') eqn:E.
      - apply key_eqb_spec in E. subst k'. rewrite (dget_dset_same _ key_eqb_spec) in G. injection G as <-. constructor.
      - rewrite (dget_dset_other _ key_eqb_spec) in G; [apply I, G|]. intros ->. rewrite (keq_refl _ key_eqb_spec) in E. discriminate. }
    set (fs := match dget key_eqb active k with Some l => l | None => [] end ++ [f]).
    assert (Fs : Forall (fun g => f_id g = f_id f /\ heard g) fs).
    { unfold fs. apply Forall_app. split; [|constructor; [auto|constructor]]. destruct (dget key_eqb active k) eqn:G; [|constructor].
      apply I1 in G. exact G. }
    assert (ND2 : NoDup (map fst (dset key_eqb active k fs))) by (apply dset_nodup; [apply key_eqb_spec|exact ND1]).
    assert (I2 : forall k' l, dget key_eqb (dset key_eqb active k fs) k' = Some l -> Forall (fun f => f_id f = fst k' /\ heard f) l).
    { intros k' l G. destruct (key_eqb k k') eqn:E.
      - apply key_eqb_spec in E. subst k'. rewrite (dget_dset_same _ key_eqb_spec) in G. injection G as <-. exact Fs.
      - rewrite (dget_dset_other _ key_eqb_spec) in G; [apply I1, G|]. intros ->. rewrite (keq_refl _ key_eqb_spec) in E. discriminate. }
    destruct (end_of_transfer f); cbn [m_active]; [|auto].
    split; [|split; [apply ddel_nodup; exact ND2|]].
    - intros k' l G. destruct (key_eqb k k') eqn:E.
      + apply key_eqb_spec in E. subst k'. rewrite (dget_ddel_same _ key_eqb_spec) in G by exact ND2. discriminate.
      + rewrite (dget_ddel_other _ key_eqb_spec) in G; [apply I2, G|]. intros ->. rewrite (keq_refl _ key_eqb_spec) in E. discriminate.
    - split; [|exact Fs]. unfold fs. intros K. apply app_eq_nil in K as (_ & K). discriminate.
  Qed.

  Lemma receive_other m f now k : k <> transfer_key f ->
    dget key_eqb (m_active (fst (receive_frame m f now))) k = dget key_eqb (m_active m) k.
  Proof.
    intros N. unfold receive_frame. destruct (dmem key_eqb (m_active m) (transfer_key f) || start_of_transfer f); [|reflexivity].
    destruct (end_of_transfer f); cbn [fst m_active]; rewrite ?(dget_ddel_other _ key_eqb_spec) by congruence;
      rewrite (dget_dset_other _ key_eqb_spec) by congruence;
      destruct (start_of_transfer f); rewrite ?(dget_dset_other _ key_eqb_spec) by congruence; reflexivity.
  Qed.
  Lemma receive_same m m' f now : NoDup (map fst (m_active m)) -> NoDup (map fst (m_active m')) ->
    dget key_eqb (m_active m) (transfer_key f) = dget key_eqb (m_active m') (transfer_key f) ->
    snd (receive_frame m f now) = snd (receive_frame m' f now) /\
    dget key_eqb (m_active (fst (receive_frame m f now))) (transfer_key f) =
    dget key_eqb (m_active (fst (receive_frame m' f now))) (transfer_key f).
  Proof.
    intros ND ND' E. unfold receive_frame. unfold dmem. rewrite E.
    destruct (match dget key_eqb (m_active m') (transfer_key f) with Some _ => true | None => false end || start_of_transfer f);
      [|cbn [fst snd]; auto].
    assert (E1 : dget key_eqb (if start_of_transfer f then dset key_eqb (m_active m) (transfer_key f) [] else m_active m) (transfer_key f) =
                 dget key_eqb (if start_of_transfer f then dset key_eqb (m_active m') (transfer_key f) [] else m_active m') (transfer_key f)).
    { destruct (start_of_transfer f); [rewrite !(dget_dset_same _ key_eqb_spec); reflexivity|exact E]. }
    rewrite E1. destruct (end_of_transfer f); cbn [fst snd m_active].
    - split; [reflexivity|].
      rewrite !(dget_ddel_same _ key_eqb_spec); [reflexivity| |]; (apply dset_nodup; [apply key_eqb_spec|]);
        (destruct (start_of_transfer f); [apply dset_nodup; [apply key_eqb_spec|]|]); assumption.
    - split; [reflexivity|]. rewrite !(dget_dset_same _ key_eqb_spec). reflexivity.
  Qed.

  Definition sound (m : manager) : Prop := NoDup (map fst (m_active m)).
  Definition related (m m' : manager) : Prop := agree m m' /\ sound m /\ sound m'.

  Notation quieted := (unheard noise).
  Lemma receive_nodup m f now : sound m -> sound (fst (receive_frame m f now)).
  Proof.
    unfold sound, receive_frame. intros ND. destruct (dmem key_eqb (m_active m) (transfer_key f) || start_of_transfer f); [|exact ND].
    destruct (end_of_transfer f); cbn [fst m_active]; [apply ddel_nodup|]; (apply dset_nodup; [apply key_eqb_spec|]);
      destruct (start_of_transfer f); try (apply dset_nodup; [apply key_eqb_spec|]); exact ND.
  Qed.
  Lemma lift_id {A} (f : node -> node * A) : (forall m s, f (set_manager s m) = lift m (f s)) ->
    forall s, n_manager (fst (f s)) = n_manager s.
  Proof.
    intros L s. specialize (L (n_manager s) s). replace (set_manager s (n_manager s)) with s in L by (destruct s; reflexivity).
    rewrite L. reflexivity.
  Qed.

  Notation input := (apply_input clk beh drv status status_dt types second).
  Lemma input_near fuel s' m i : (forall f, i = IFrame true f -> heard f) -> related m (n_manager s') -> exists m',
    input fuel (set_manager s' m) i = set_manager (input fuel s' (quieted i)) m' /\
    related m' (n_manager (input fuel s' (quieted i))).
  Proof.
    intros Hi R. assert (Keep : forall A (f : node -> node * A), (forall m s, f (set_manager s m) = lift m (f s)) ->
      exists m', fst (f (set_manager s' m)) = set_manager (fst (f s')) m' /\ related m' (n_manager (fst (f s')))).
    { intros A f L. exists m. rewrite L. split; [reflexivity|]. rewrite (lift_id f L). exact R. }
    destruct i as [op|x f|t| |]; cbn [unheard apply_input].
    - apply (Keep _ (fun s => apply_nop clk drv second s op)). intros. apply nop_lift.
    - destruct x; [|exists m; split; [reflexivity|exact R]].
      destruct R as ((A1 & A2) & S1 & S2).
      pose proof (receive_ids m f (clk (n_reads s')) (Hi f eq_refl) A2 S1) as I.
      assert (Left : fst (recv_frame clk beh drv types second fuel (set_manager s' m) true f) =
        let (m1, done) := receive_frame m f (clk (n_reads s')) in
        let s1 := set_manager (set_reads s' (S (n_reads s'))) m1 in
        match done with None => s1 | Some [] => s1
        | Some fs => match from_frames types fs with Err _ => s1 | Ok t => fst (recv_transfer clk beh drv second fuel s1 t) end end).
      { unfold recv_frame. cbn [negb nread set_manager n_reads n_manager set_reads].
        destruct (receive_frame m f (clk (n_reads s'))) as [m1 [[|f0 fs]|]]; try reflexivity.
        destruct (from_frames types (f0 :: fs)); reflexivity. }
      rewrite Left. destruct (noise (f_id f)) eqn:Z; cbn [apply_input nread snd].
      + destruct (receive_frame m f (clk (n_reads s'))) as [m1 done] eqn:E. destruct I as (I1 & I2 & I3).
        exists m1. split.
        * destruct done as [[|f0 fs]|]; [reflexivity| |reflexivity]. destruct I3 as (I3 & I4).
          destruct (hopeless (f_id f) (f0 :: fs) Z I3 I4) as (x & ->). reflexivity.
        * cbn [set_reads n_manager]. split; [|split; assumption]. split; [|exact I1].
          intros k Hk. rewrite <- A1 by exact Hk. replace m1 with (fst (receive_frame m f (clk (n_reads s')))) by (rewrite E; reflexivity).
          apply receive_other. intros ->. cbn in Hk. congruence.
      + assert (Right : fst (recv_frame clk beh drv types second fuel s' true f) =
          let (m1, done) := receive_frame (n_manager s') f (clk (n_reads s')) in
          let s1 := set_manager (set_reads s' (S (n_reads s'))) m1 in
          match done with None => s1 | Some [] => s1
          | Some fs => match from_frames types fs with Err _ => s1 | Ok t => fst (recv_transfer clk beh drv second fuel s1 t) end end).
        { unfold recv_frame. cbn [negb nread set_manager n_reads n_manager set_reads].
          destruct (receive_frame (n_manager s') f (clk (n_reads s'))) as [m1 [[|f0 fs]|]]; try reflexivity.
          destruct (from_frames types (f0 :: fs)); reflexivity. }
        rewrite Right. destruct (receive_same m (n_manager s') f (clk (n_reads s')) S1 S2) as (D & K).
        { apply A1. exact Z. }
        pose proof (receive_other m f (clk (n_reads s'))) as O1.
        pose proof (receive_other (n_manager s') f (clk (n_reads s'))) as O2.
        assert (ND : sound (fst (receive_frame (n_manager s') f (clk (n_reads s'))))) by (apply receive_nodup; exact S2).
        destruct (receive_frame m f (clk (n_reads s'))) as [m1 done]. destruct I as (I1 & I2 & _).
        destruct (receive_frame (n_manager s') f (clk (n_reads s'))) as [m2 done2]. cbn [fst snd] in *. subst done2.
        assert (R : related m1 m2).
        { split; [|split; assumption]. split; [|exact I1]. intros k Hk. destruct (key_eqb k (transfer_key f)) eqn:E.
          - apply key_eqb_spec in E. subst k. exact K.
          - assert (k <> transfer_key f) by (intros ->; rewrite (keq_refl _ key_eqb_spec) in E; discriminate).
            rewrite O1, O2 by assumption. apply A1, Hk. }
        destruct done as [[|f0 fs]|]; [exists m1; split; [reflexivity|exact R]| |exists m1; split; [reflexivity|exact R]].
        destruct (from_frames types (f0 :: fs)) as [t|]; [|exists m1; split; [reflexivity|exact R]].
        cbv zeta. set (s1 := set_reads s' (S (n_reads s'))). exists m1.
        change (set_manager s1 m1) with (set_manager (set_manager s1 m2) m1).
        split; [rewrite recv_transfer_lift; reflexivity|].
        rewrite (lift_id (fun s => recv_transfer clk beh drv second fuel s t) (fun m s => recv_transfer_lift m fuel s t)). exact R.
    - apply (Keep _ (fun s => recv_transfer clk beh drv second fuel s t)). intros. apply recv_transfer_lift.
    - apply (Keep _ (fun s => npoll clk beh drv status status_dt second fuel s)). intros. apply npoll_lift.
    - exists m. split; [reflexivity|exact R].
  Qed.

  Notation history := (node_history clk beh drv status status_dt types second).
  Lemma history_near fuel ins : (forall f, In (IFrame true f) ins -> heard f) -> forall s' m, related m (n_manager s') -> exists m',
    history fuel (set_manager s' m) ins = set_manager (history fuel s' (map quieted ins)) m'.
  Proof.
    induction ins as [|i ins IH]; intros Hi s' m R; [exists m; reflexivity|].
    destruct (input_near fuel s' m i (fun f E => Hi f (or_introl E)) R) as (m1 & E & R1).
    change (history fuel (set_manager s' m) (i :: ins)) with (history fuel (input fuel (set_manager s' m) i) ins).
    cbn [map]. change (history fuel s' (quieted i :: map quieted ins)) with (history fuel (input fuel s' (quieted i)) (map quieted ins)).
    rewrite E. apply IH; [|exact R1]. intros f H. apply Hi. right. exact H.
  Qed.
  Lemma history_quiet fuel s ins : (forall f, In (IFrame true f) ins -> heard f) -> m_active (n_manager s) = [] ->
    exists m, history fuel s ins = set_manager (history fuel s (map quieted ins)) m.
  Proof.
    intros Hi E. destruct (history_near fuel ins Hi s (n_manager s)) as (m & H).
    - split; [|split; unfold sound; rewrite E; constructor]. split; [reflexivity|]. rewrite E. discriminate.
    - exists m. rewrite <- H. destruct s; reflexivity.
  Qed.
End Noise.

Lemma unknown_hopeless types i fs : unknown types i -> fs <> [] -> Forall (fun f => f_id f = i) fs ->
  exists x, from_frames types fs = Err x.
Proof.
  intros U N F. destruct fs as [|f0 fs]; [easy|]. apply Forall_cons_iff in F as (E & _). unfold from_frames. rewrite E.
  destruct (last_byte (f_bytes f0)); [|eexists; reflexivity]. cbn [bind].
  destruct (check_tails (f0 :: fs) _ 0 0 _); [|eexists; reflexivity]. cbn [bind].
  set (h := set_message_id fresh_header i).
  assert (T : (h_dtid h, h_service h) = type_in i).
  { unfold h, type_in. rewrite set_message_id_arith. cbv zeta. change (i mod 2 ^ 7)%N with (i mod 128)%N.
    destruct ((i / 2 ^ 7) mod 2 =? 1)%N; [reflexivity|]. destruct (i mod 128 =? 0)%N; reflexivity. }
  unfold unknown in U. rewrite <- T in U. cbn [fst snd] in U. rewrite U. eexists. reflexivity.
Qed.

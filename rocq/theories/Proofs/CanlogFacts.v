(** Converting a log. *)
From Verif.Base Require Import Prelude Bits.
From Verif.Model Require Import Types Prim Codec MsgId Frames TransferManager Sched Node CanFrame FileLog MavTunnel Canlog.
From Verif.Spec Require Import CodecSpec MsgIdSpec FrameSpec ReassemblySpec SendingSpec NodeSpec CallSpec StreamSpec LogSpec LinkSpec CanlogSpec.
From Verif.Proofs Require Import MsgIdFacts FrameFacts ReassemblyFacts ManagerFacts TransferTop NodeFacts RequestFacts NodeRequests NodeDispatch NodeTop NodeNet NodeCallTop StreamFacts TypedStream LogFacts LinkFacts RouteFacts.
Local Open Scope Z_scope.

(** ** The log driver *)
Section Driver.
  Variables (gs : list cframe) (tail : list N) (st first : Z).
  Hypothesis F : Forall loggable gs.
  Hypothesis T : (length tail < 20)%nat.
  Let content := recorded gs ++ tail.

  Definition ready (r : reader) (i : nat) : Prop :=
    r_start r = Some st /\ r_first r = first /\ r_curr r = None /\ standing gs tail st first r i.
  (** How many calls it takes at most to the end. *)
  Definition left (r : reader) (i : nat) : nat :=
    if r_eof r then 0%nat else if (length content <=? r_pos r)%nat then 1%nat else (length gs - i + 2)%nat.

  Lemma receive_now r i : ready r i ->
    let '(r', x) := receive content None r None 0 in
    exists i', ready r' i' /\ (left r' i' <= left r i)%nat /\ (r_eof r = false -> (left r' i' < left r i)%nat) /\
    ((i = length gs /\ i' = i /\ x = Ok None) \/
     exists f, rest st first gs i = f :: rest st first gs (S i) /\ (i < length gs)%nat /\ i' = S i /\ x = Ok (Some f)).
  Proof.
    intros (ST & FI & CU & SD). pose proof (receive_standing gs tail st first None r i None 0 F T ST FI SD) as R.
    fold content in R.
    assert (C : r_curr (fst (receive content None r None 0)) = None).
    { unfold receive. destruct (r_eof r); [exact CU|]. rewrite ST, CU. destruct (read_frame content r) as [r1 [[[f ts]|]|e]]; reflexivity. }
    assert (M : r_eof r = true -> fst (receive content None r None 0) = r) by (intros E; unfold receive; rewrite E; reflexivity).
    assert (E1 : r_eof r = false -> i = length gs -> (length content <= r_pos r)%nat -> r_eof (fst (receive content None r None 0)) = true).
    { intros E Ei L. unfold receive. rewrite E, ST, CU. rewrite read_at_end by exact L. reflexivity. }
    assert (E2 : r_eof r = false -> i = length gs -> (r_pos r < length content)%nat -> (length content <= r_pos (fst (receive content None r None 0)))%nat).
    { intros E Ei L. inversion SD as [pre f post EG P _ _ EL|pre f post EG P _ HC EL|P1 P2 _ EL].
      - exfalso. rewrite EG, app_length in *. cbn [length] in *. lia.
      - congruence.
      - assert (P3 : r_pos r = length (recorded gs)) by (unfold content in L; lia).
        unfold receive. rewrite E, ST, CU. unfold content in *. rewrite app_length in L.
        rewrite read_in_header by (assumption || lia). cbn. rewrite app_length. lia. }
    destruct (receive content None r None 0) as [r' x]. cbn [fst] in *.
    destruct R as (ST' & FI' & [(Ei & -> & SD')|(f & RE & LT & [(D & -> & SD')|(D & -> & SD')])]).
    - exists i. split; [exact (conj ST' (conj FI' (conj C SD')))|].
      assert (Lt : r_eof r = false -> (left r' i < left r i)%nat).
      { intros E. unfold left. rewrite E. destruct (Nat.leb_spec (length content) (r_pos r)) as [L|L].
        - rewrite (E1 E Ei L). lia.
        - specialize (E2 E Ei L). apply Nat.leb_le in E2. rewrite E2. destruct (r_eof r'); lia. }
      split; [|split; [exact Lt|left; auto]].
      destruct (r_eof r) eqn:E; [rewrite (M eq_refl); lia|specialize (Lt eq_refl); lia].
    - assert (E : r_eof r = false /\ (r_pos r < length content)%nat).
      { inversion SD as [pre g post EG P EO _ EL|pre g post EG P EO HC EL|P1 P2 _ EL].
        - split; [exact EO|]. unfold content. rewrite EG, recorded_app, recorded_cons, !app_length.
          assert (LG : loggable g) by (apply (proj1 (Forall_forall _ _) F); rewrite EG; apply in_elt).
          rewrite (bytes_of_length g LG). lia.
        - congruence.
        - lia. }
      destruct E as (E & L).
      exists (S i). split; [exact (conj ST' (conj FI' (conj C SD')))|].
      assert (Lt : (left r' (S i) < left r i)%nat).
      { unfold left. rewrite E. apply Nat.leb_gt in L. rewrite L. destruct (r_eof r'); [lia|]. destruct (Nat.leb_spec (length content) (r_pos r')); lia. }
      split; [lia|]. split; [auto|]. right. exists f. auto.
    - exfalso. apply D. exact I.
  Qed.

  Lemma eof_last r i : ready r i -> r_eof r = true -> i = length gs.
  Proof. intros (_ & _ & _ & SD) E. inversion SD; congruence. Qed.
  Lemma eof_left r i : r_eof r = false -> (0 < left r i)%nat.
  Proof. intros E. unfold left. rewrite E. destruct (_ <=? _)%nat; lia. Qed.
End Driver.

(** ** The program *)
Section Program.
  Variable clk : nat -> Z.
  Variable status : list nobs -> value.
  Variable status_dt : datatype.
  Variable types : datatypes.
  Variable second : Z.
  Variable node_info : option (datatype * value).
  Variable pos : option nat.
  Variable d : N.
  Variable tick : Z.
  Variables (interval : Z) (info : typeid) (fuel : nat).
  Variables (gs : list cframe) (tail : list N) (st first : Z).
  Hypothesis F : Forall loggable gs.
  Hypothesis T : (length tail < 20)%nat.
  Let content := recorded gs ++ tail.
  Let X := converter clk status status_dt types second node_info pos interval info fuel.
  Let add := IOp (NAddHandler (Some (d, false)) false).
  Let raw (g : cframe) := (c_ext g, as_heard g).
  Let all := map raw (rest st first gs 0).

  Notation log_once := (log_once clk status status_dt types second node_info pos content fuel).
  Notation log_loop := (log_loop clk status status_dt types second node_info pos content fuel).
  Notation log_spin := (log_spin clk status status_dt types second node_info pos content tick fuel).
  Notation convert_loop := (convert_loop clk status status_dt types second node_info pos content tick fuel).

  Definition got (k : nat) (s : node) : Prop :=
    exists ins, s = ran X (add :: ins) /\ just_spins ins /\ frames_in ins = firstn k all.

  Lemma rest_skip i : rest st first gs i = skipn i (rest st first gs 0).
  Proof. unfold rest. cbn [skipn]. rewrite skipn_map. reflexivity. Qed.
  Lemma all_next i f : rest st first gs i = f :: rest st first gs (S i) -> firstn (S i) all = firstn i all ++ [raw f].
  Proof.
    intros E. unfold all. rewrite (rest_skip i) in E. rewrite !firstn_map. change [raw f] with (map raw [f]).
    rewrite <- map_app. f_equal.
    rewrite <- (firstn_skipn i (rest st first gs 0)) at 1. rewrite firstn_app, E, firstn_firstn.
    assert (L : (i < length (rest st first gs 0))%nat).
    { destruct (Nat.lt_ge_cases i (length (rest st first gs 0))) as [H|H]; [exact H|]. rewrite skipn_all2 in E by lia. discriminate. }
    rewrite firstn_length_le by lia. replace (Nat.min (S i) i) with i by lia. replace (S i - i)%nat with 1%nat by lia. reflexivity.
  Qed.
  Lemma got_more k s ins : got k s -> just_spins ins -> frames_in ins = [] ->
    got k (node_history clk (st_beh X) discards status status_dt types second fuel s ins).
  Proof.
    intros (i0 & -> & J & E) J' E'. exists (i0 ++ ins). split.
    - unfold ran, node_history. rewrite app_comm_cons, fold_left_app. reflexivity.
    - split; [apply Forall_app; split; assumption|]. rewrite frames_in_app, E, E', app_nil_r. reflexivity.
  Qed.
  Lemma got_frame i f s ins : got i s -> rest st first gs i = f :: rest st first gs (S i) -> just_spins ins -> frames_in ins = [raw f] ->
    got (S i) (node_history clk (st_beh X) discards status status_dt types second fuel s ins).
  Proof.
    intros (i0 & -> & J & E) R J' E'. exists (i0 ++ ins). split.
    - unfold ran, node_history. rewrite app_comm_cons, fold_left_app. reflexivity.
    - split; [apply Forall_app; split; assumption|]. rewrite frames_in_app, E, E'. symmetry. apply all_next. exact R.
  Qed.

  (** After a call: where the driver is and what the node has heard. *)
  Definition fine (r : reader) (i : nat) (r' : reader) (s' : node) (e : option exn) : Prop :=
    match e with
    | None => exists i', ready gs tail st first r' i' /\ got i' s' /\ (left gs tail r' i' <= left gs tail r i)%nat
    | Some _ => exists k, got k s'
    end.

  Lemma once_fine dl r i s r' s' e : ready gs tail st first r i -> got i s -> log_once dl r s = (r', s', e) ->
    fine r i r' s' e /\ (e = None -> r_eof r = false -> exists i', ready gs tail st first r' i' /\ got i' s' /\ (left gs tail r' i' < left gs tail r i)%nat).
  Proof.
    intros R G. unfold Canlog.log_once. pose proof (receive_now gs tail st first F T r i R) as N. fold content in N.
    destruct (FileLog.receive content None r None 0) as [r1 x]. destruct N as (i' & R1 & Le & Lt & Hx).
    change (callbacks node_info pos) with (st_beh X). unfold execute_once.
    destruct (npoll clk (st_beh X) discards status status_dt second fuel s) as [s1 [next|p]] eqn:Ep.
    2:{ intros E. injection E as <- <- <-. split; [|discriminate]. exists i.
        assert (E1 : s1 = node_history clk (st_beh X) discards status status_dt types second fuel s [IPoll]) by (unfold node_history; cbn [fold_left apply_input]; rewrite Ep; reflexivity).
        rewrite E1. apply got_more; [exact G| |reflexivity]. repeat constructor. }
    cbn [nread]. set (s2 := set_reads s1 (S (n_reads s1))).
    assert (E2 : s2 = node_history clk (st_beh X) discards status status_dt types second fuel s [IPoll; IRead]) by (unfold node_history; cbn [fold_left apply_input]; rewrite Ep; reflexivity).
    destruct Hx as [(Ei & -> & ->)|(f & RE & LT & -> & ->)].
    - intros E. injection E as <- <- <-.
      assert (G2 : got i s2) by (rewrite E2; apply got_more; [exact G|repeat constructor|reflexivity]).
      split; [exists i; auto|]. intros _ Eo. exists i. auto.
    - assert (G3 : got (S i) (fst (recv_frame clk (st_beh X) discards types second fuel s2 (c_ext f) (as_heard f)))).
      { assert (E3 : fst (recv_frame clk (st_beh X) discards types second fuel s2 (c_ext f) (as_heard f)) =
          node_history clk (st_beh X) discards status status_dt types second fuel s [IPoll; IRead; IFrame (c_ext f) (as_heard f)]).
        { change [IPoll; IRead; IFrame (c_ext f) (as_heard f)] with ([IPoll; IRead] ++ [IFrame (c_ext f) (as_heard f)]).
          unfold node_history in *. rewrite fold_left_app, <- E2. reflexivity. }
        rewrite E3. eapply got_frame; [exact G|exact RE|repeat constructor|reflexivity]. }
      unfold as_heard in G3. destruct (recv_frame clk (st_beh X) discards types second fuel s2 (c_ext f) _) as [s3 [p|]]; cbn [fst] in G3;
        intros E; injection E as <- <- <-.
      + split; [exists (S i); exact G3|discriminate].
      + split; [exists (S i); auto|]. intros _ Eo. exists (S i). auto.
  Qed.
  Lemma got_read k s : got k s -> got k (set_reads s (S (n_reads s))).
  Proof. intros G. apply (got_more k s [IRead] G); [repeat constructor|reflexivity]. Qed.
  Lemma loop_fine turns dl : forall r i s r' s' e, ready gs tail st first r i -> got i s -> log_loop turns dl r s = (r', s', e) ->
    fine r i r' s' e.
  Proof.
    induction turns as [|turns IH]; cbn [Canlog.log_loop]; intros r i s r' s' e R G.
    - intros E. injection E as <- <- <-. exists i. exact G.
    - cbn [nread]. pose proof (got_read _ _ G) as G1. set (s1 := set_reads s (S (n_reads s))) in *.
      destruct (clk (n_reads s) <? dl).
      2:{ intros E. injection E as <- <- <-. exists i. auto. }
      destruct (log_once dl r s1) as [[r2 s2] [p|]] eqn:Eo; apply (once_fine dl r i) in Eo as (Ho & _); try assumption.
      + intros E. injection E as <- <- <-. exact Ho.
      + intros E. destruct Ho as (i' & R' & G' & Le). specialize (IH r2 i' s2 r' s' e R' G' E).
        destruct e; [exact IH|]. destruct IH as (j & A & B & C). exists j. split; [exact A|]. split; [exact B|lia].
  Qed.
  Lemma spin_fine turns r i s r' s' e : ready gs tail st first r i -> got i s -> log_spin turns r s = (r', s', e) ->
    match e with
    | None => exists i', ready gs tail st first r' i' /\ got i' s' /\ (r_eof r = false -> (left gs tail r' i' < left gs tail r i)%nat)
    | Some _ => exists k, got k s'
    end.
  Proof.
    intros R G. unfold Canlog.log_spin. cbn [nread]. pose proof (got_read _ _ G) as G1. set (s1 := set_reads s (S (n_reads s))) in *.
    destruct (log_once (clk (n_reads s) + tick) r s1) as [[r2 s2] [p|]] eqn:Eo; apply (once_fine _ r i) in Eo as (Ho & Hs); try assumption.
    - intros E. injection E as <- <- <-. exact Ho.
    - destruct (r_eof r) eqn:E0.
      + destruct Ho as (i' & R' & G' & Le). intros E. apply (loop_fine turns _ r2 i') in E; try assumption. destruct e; [exact E|].
        destruct E as (j & A & B & C). exists j. split; [exact A|]. split; [exact B|discriminate].
      + destruct (Hs eq_refl eq_refl) as (i' & R' & G' & Lt). intros E. apply (loop_fine turns _ r2 i') in E; try assumption. destruct e; [exact E|].
        destruct E as (j & A & B & C). exists j. split; [exact A|]. split; [exact B|]. intros _. lia.
  Qed.
  Lemma convert_fine turns loops : forall r i s s' o, ready gs tail st first r i -> got i s -> r_eof r = false ->
    convert_loop turns loops r s = (s', o) ->
    (exists k, got k s' /\ (o = Some (Ok tt) -> k = length gs)) /\ ((left gs tail r i <= loops)%nat -> o <> None).
  Proof.
    induction loops as [|loops IH]; cbn [Canlog.convert_loop]; intros r i s s' o R G E0.
    - intros E. injection E as <- <-. split; [exists i; split; [exact G|discriminate]|].
      intros L. pose proof (eof_left gs tail T r i E0). lia.
    - destruct (log_spin turns r s) as [[r2 s2] [p|]] eqn:Es; apply (spin_fine turns r i) in Es; try assumption.
      + intros E. injection E as <- <-. destruct Es as (k & Gk). split; [exists k; split; [exact Gk|discriminate]|discriminate].
      + destruct Es as (i' & R' & G' & Lt). specialize (Lt E0). destruct (r_eof r2) eqn:E2.
        * intros E. injection E as <- <-. split; [|discriminate]. exists i'. split; [exact G'|]. intros _.
          exact (eof_last gs tail st first r2 i' R' E2).
        * intros E. destruct (IH r2 i' s2 s' o R' G' E2 E) as (A & B). split; [exact A|]. intros L. apply B. lia.
  Qed.
End Program.

(** ** Who is called *)
Lemma no_ops_of B : (forall l, fst (st_beh B l) = []) -> forall l op c, In (op, c) (fst (st_beh B l)) -> keeps_handlers op.
Proof. intros H l op c X. rewrite H in X. destruct X. Qed.
Section Registered.
  Variable B : station.
  Hypothesis no_ops : forall l op c, In (op, c) (fst (st_beh B l)) -> keeps_handlers op.
  Notation call_handler := (call_handler (st_clk B) (st_beh B) (st_drv B) (st_second B)).
  Notation call_handlers := (call_handlers (st_clk B) (st_beh B) (st_drv B) (st_second B)).
  Notation recv_transfer := (recv_transfer (st_clk B) (st_beh B) (st_drv B) (st_second B)).

  Lemma loop_registered L c fuel : forall s o i t, kept L c s -> exists hs,
    handled (n_log (fst (call_handlers fuel s o i t))) = handled (n_log s) ++ hs /\
    Forall (fun p => In (fst p) (nth o L []) /\ accepts (fst p) t = true /\ snd p = t) hs.
  Proof.
    induction fuel as [|fuel IH]; cbn [Node.call_handlers]; intros s o i t K.
    { exists []. now rewrite app_nil_r. }
    destruct (nth_error (handler_list s o) i) as [hd|] eqn:En; [|exists []; now rewrite app_nil_r].
    destruct (accepts hd t) eqn:Ea; [|apply IH; exact K].
    assert (Hin : In hd (nth o L [])).
    { destruct K as (K & _). unfold handler_list in En. rewrite K in En. exact (nth_error_In _ _ En). }
    pose proof (handled_call (st_clk B) (st_beh B) (st_drv B) (st_second B) s hd t) as H.
    pose proof (kept_call (st_clk B) (st_beh B) (st_drv B) (st_second B) no_ops L c s hd t K) as K1.
    assert (G : exists hs, handled (n_log (fst (call_handlers fuel (fst (call_handler s hd t)) o (S i) t))) = handled (n_log s) ++ hs /\
      Forall (fun p => In (fst p) (nth o L []) /\ accepts (fst p) t = true /\ snd p = t) hs).
    { destruct (IH (fst (call_handler s hd t)) o (S i) t K1) as (hs & E & Hf). exists ((hd, t) :: hs).
      split; [rewrite E, H, <- app_assoc; reflexivity|]. constructor; auto. }
    destruct (call_handler s hd t) as [s1 [x|]]; cbn [fst] in *; [|exact G].
    destruct (n_catch s1); [exact G|]. exists [(hd, t)]. cbn [fst]. split; [exact H|]. constructor; auto.
  Qed.

  Lemma recv_registered L c fuel s t : kept L c s -> exists hs,
    handled (n_log (fst (recv_transfer fuel s t))) = handled (n_log s) ++ hs /\
    Forall (fun p => In (fst p) (nth c L []) /\ accepts (fst p) t = true /\ snd p = t) hs.
  Proof.
    intros K. destruct (handlers_called (st_clk B) (st_beh B) (st_drv B) (st_second B) fuel s t) as (hs0 & E0 & _).
    unfold Node.recv_transfer in *.
    destruct (h_service (rx_header t) && negb (h_request (rx_header t)) && optN_eqb (h_dest (rx_header t)) (n_id s)) eqn:E1.
    - exists []. split; [|constructor]. rewrite app_nil_r. clear E0 hs0.
      destruct (find_request t (n_requests s)) as [k|]; [|reflexivity].
      destruct (dget key_eqb (n_callbacks s) k) as [[r ev]|]; [|reflexivity].
      fold (called s r ev t). pose proof (handled_react (st_clk B) (st_beh B) (st_drv B) (st_second B) (called s r ev t)) as H.
      assert (Hc : handled (n_log (called s r ev t)) = handled (n_log s)).
      { unfold called. destruct (cancel ev (n_queue s)); cbn; rewrite handled_app; apply app_nil_r. }
      rewrite Hc in H. destruct (react _ _ _ _ (called s r ev t)) as [s2 [y|x]]; cbn [fst] in *; [|exact H].
      destruct (dmem key_eqb (n_requests s2) k); cbn [negb]; [|exact H].
      destruct (dmem key_eqb (n_callbacks s2) k); cbn [negb]; exact H.
    - clear E0 hs0. destruct (_ || _); [|exists []; rewrite app_nil_r; split; [reflexivity|constructor]].
      pose proof K as (_ & Kc). rewrite Kc. exact (loop_registered L c fuel s c 0 t K).
  Qed.

  (** Every call is of a handler for the transfer, which has the identifier of
      a frame that was heard. *)
  Lemma calls_registered L c ins0 : kept L c (ran B ins0) -> handled (n_log (ran B ins0)) = [] ->
    forall ins, just_spins ins -> kept L c (ran B (ins0 ++ ins)) /\
    Forall (fun p => In (fst p) (nth c L []) /\ accepts (fst p) (snd p) = true /\
      exists f fs f', from_frames (st_types B) (f :: fs) = Ok (snd p) /\ In f' (heard (ins0 ++ ins)) /\ f_id f' = f_id f)
      (handled (n_log (ran B (ins0 ++ ins)))).
  Proof.
    intros K0 H0 ins. induction ins as [|i ins IH] using rev_ind; intros J.
    { rewrite app_nil_r. split; [exact K0|]. rewrite H0. constructor. }
    apply Forall_app in J as (J & Ji). apply Forall_cons_iff in Ji as (Ji & _). destruct (IH J) as (K & C). clear IH.
    rewrite app_assoc. set (i1 := ins0 ++ ins) in *.
    assert (Es : ran B (i1 ++ [i]) = apply_input (st_clk B) (st_beh B) (st_drv B) (st_status B) (st_status_dt B) (st_types B) (st_second B) (st_fuel B) (ran B i1) i).
    { unfold ran, node_history. rewrite fold_left_app. reflexivity. }
    split.
    { rewrite Es. apply (kept_input (st_clk B) (st_beh B) (st_drv B) (st_status B) (st_status_dt B) (st_types B) (st_second B) no_ops L c); [|exact K].
      destruct i; try exact I; destruct Ji. }
    assert (Hin : forall f', In f' (heard i1) -> In f' (heard (i1 ++ [i]))).
    { intros f' H. rewrite heard_app. apply in_or_app. left. exact H. }
    assert (C1 : Forall (fun p => In (fst p) (nth c L []) /\ accepts (fst p) (snd p) = true /\
      exists f fs f', from_frames (st_types B) (f :: fs) = Ok (snd p) /\ In f' (heard (i1 ++ [i])) /\ f_id f' = f_id f) (handled (n_log (ran B i1)))).
    { eapply Forall_impl; [|exact C]. intros p (A1 & A2 & f & fs & f' & A3 & A4 & A5). repeat split; auto. exists f, fs, f'. auto. }
    assert (Quiet : match i with IFrame true _ | ITransfer _ => False | _ => True end -> handled (n_log (ran B (i1 ++ [i]))) = handled (n_log (ran B i1))).
    { intros Hi. rewrite Es. apply (silent_input (st_clk B) (st_beh B) (st_drv B) (st_status B) (st_status_dt B) (st_types B) (st_second B)); [exact Hi|reflexivity]. }
    destruct i as [op|[] f| | |]; try (destruct Ji); try (rewrite Quiet by exact I; exact C1).
    rewrite Es. cbn [apply_input]. set (s := ran B i1) in *.
    destruct (manager_history (st_clk B) (st_beh B) (st_drv B) (st_status B) (st_status_dt B) (st_types B) (st_second B) (st_fuel B) i1
      (new_node (st_clk B) (st_id B) (st_canfd B) (st_catch B) (st_interval B) (st_info B)) []) as (arr & Harr & Hm & _); [reflexivity|].
    change (node_history _ _ _ _ _ _ _ _ _ i1) with s in Hm. cbn [app] in Hm.
    unfold Node.recv_frame. cbn [negb nread]. set (s1 := set_reads s (S (n_reads s))).
    change (n_manager s1) with (n_manager s). rewrite Hm.
    destruct (receive_frame (fst (feed new_manager arr)) f (st_clk B (n_reads s))) as [m dn] eqn:E.
    destruct dn as [[|f0 fs]|]; [exact C1| |exact C1].
    destruct (from_frames (st_types B) (f0 :: fs)) as [t|] eqn:Ef; [|exact C1].
    assert (Hx : snd (receive_frame (fst (feed new_manager arr)) f (st_clk B (n_reads s))) = Some (f0 :: fs)) by (rewrite E; reflexivity).
    apply receive_exact in Hx as [H1 _].
    destruct (recv_registered L c (st_fuel B) (set_manager s1 m) t K) as (hs & Hh & Hi). rewrite Hh. apply Forall_app. split; [exact C1|].
    eapply Forall_impl; [|exact Hi]. intros p (A1 & A2 & A3). cbv beta. rewrite A3. split; [exact A1|]. split; [exact A2|].
    exists f0, fs, f. split; [exact Ef|]. split; [rewrite heard_app; apply in_or_app; right; left; reflexivity|].
    destruct H1 as (_ & H1). destruct (H1 0%nat f0 eq_refl) as (Hk & _). unfold transfer_key in Hk. injection Hk as Hk _. symmetry. exact Hk.
  Qed.
End Registered.

(** ** The whole program *)
Lemma converts clk status status_dt types second node_info pos d tick interval info fuel f fs tail turns loops now s o :
  Forall loggable (f :: fs) -> (length tail < 20)%nat ->
  convert clk status status_dt types second node_info pos (recorded (f :: fs) ++ tail) d tick interval info fuel turns loops now = (s, o) ->
  (exists ins k, s = ran (converter clk status status_dt types second node_info pos interval info fuel)
                     (IOp (NAddHandler (Some (d, false)) false) :: ins) /\ just_spins ins /\
    frames_in ins = firstn k (map (fun g => (c_ext g, as_heard g)) (shifted now (f :: fs))) /\
    (o = Some (Ok tt) -> k = length (f :: fs))) /\
  ((length (f :: fs) + 2 <= loops)%nat -> o <> None).
Proof.
  intros F T. unfold convert. rewrite (open_records f fs tail now F T).
  set (r := {| r_pos := 0; r_eof := false; r_start := Some now; r_first := c_ts f; r_end := None; r_curr := None |}).
  intros E.
  destruct (convert_fine clk status status_dt types second node_info pos d tick interval info fuel (f :: fs) tail now (c_ts f) F T
    turns loops r 0 (the_node clk second d interval info) s o) as (H1 & H2).
  - split; [reflexivity|]. split; [reflexivity|]. split; [reflexivity|]. apply (st_next _ _ _ _ _ [] f fs); reflexivity.
  - exists []. split; [reflexivity|]. split; [constructor|reflexivity].
  - reflexivity.
  - exact E.
  - split.
    + destruct H1 as (k & (ins & A & B & C) & D). exists ins, k. auto.
    + intros L. apply H2. unfold left. cbn [r r_eof r_pos].
      destruct (Nat.leb_spec (length (recorded (f :: fs) ++ tail)) 0); lia.
Qed.

Lemma get_bytes_of bytes items : Forall2 (fun b x => exists w, x = VPrim w /\ length w = 8%nat /\ N_of_bits w = b) bytes items ->
  forall cm vs, map (content (TPrim KUint 8 cm)) vs = map (content (TPrim KUint 8 cm)) items -> get_bytes vs = Some bytes.
Proof.
  induction 1 as [|b x bytes items (w & -> & L & E) F IH]; intros cm vs Ev.
  - destruct vs; [reflexivity|discriminate].
  - destruct vs as [|v vs]; [discriminate|]. cbn [map] in Ev. injection Ev as E1 E2. cbn [get_bytes]. rewrite (IH cm vs E2).
    destruct v; cbn in E1; try discriminate. injection E1 as ->. cbn [get_byte get_int].
    destruct w as [|w0 w]; [discriminate L|]. unfold get_int. cbn [option_map]. rewrite N2Z.id, E. reflexivity.
Qed.
Lemma zip_nth ts : forall vs vs' i t, zip_content (map content ts) vs = zip_content (map content ts) vs' ->
  nth_error ts i = Some t -> forall x, nth_error vs i = Some x -> exists y, nth_error vs' i = Some y /\ content t x = content t y.
Proof.
  induction ts as [|t0 ts IH]; intros vs vs' i t E H x Hx; [destruct i; discriminate|].
  destruct vs as [|v vs]; [destruct i; discriminate|]. destruct vs' as [|v' vs']; [discriminate|].
  cbn [map zip_content] in E. injection E as E1 E2. destruct i as [|i]; cbn [nth_error] in *.
  - injection H as ->. injection Hx as ->. exists v'. auto.
  - eapply IH; eassumption.
Qed.
Lemma data_read p dt v v' bytes : data_field p dt -> holds p v bytes -> content (dt_fields dt) v' = content (dt_fields dt) v ->
  data_in (Some p) v' = Some bytes.
Proof.
  intros (ts & dyn & cm & mx & Et & Hn) (vs & act & items & -> & Hv & F2) E. rewrite Et in E. cbn [content] in E.
  destruct v' as [| | |vs' act']; try discriminate. injection E as E. symmetry in E.
  destruct (zip_nth ts vs vs' p _ E Hn _ Hv) as (y & Hy & Ec). cbn [data_in]. rewrite Hy. cbn [content] in Ec.
  destruct y as [| |items'|]; try discriminate. injection Ec as Ec. symmetry in Ec. exact (get_bytes_of bytes items F2 cm items' Ec).
Qed.

Lemma written_handled pos l : written pos l =
  flat_map (fun p => if Nat.eqb (hd_id (fst p)) 1 then match data_in pos (rx_value (snd p)) with Some b => b | None => [] end else []) (handled l).
Proof.
  induction l as [|o l IH]; [reflexivity|]. destruct o; cbn [written handled]; try exact IH. cbn [flat_map fst snd]. rewrite IH. reflexivity.
Qed.
Lemma flat_map_filter {A B} (p : A -> bool) (f : A -> list B) l : (forall x, In x l -> p x = false -> f x = []) ->
  flat_map f (filter p l) = flat_map f l.
Proof.
  induction l as [|x l IH]; intros H; [reflexivity|]. cbn [filter flat_map].
  rewrite <- IH by (intros y Hy; apply H; right; exact Hy). specialize (H x (or_introl eq_refl)).
  destruct (p x); [reflexivity|]. rewrite H by reflexivity. reflexivity.
Qed.

(** A message of the type was decoded from frames of the speaker. *)
Lemma decoded_speaker types a d f fs t : by_key types -> (4 <= d)%N -> from_frames types (f :: fs) = Ok t ->
  type_of t = (d, false) -> (of_type (f_id f mod 128) d f = true -> (f_id f mod 128 = a)%N) ->
  h_service (rx_header t) = false /\ h_source (rx_header t) = Some a /\ h_dtid (rx_header t) = d.
Proof.
  intros Hk Hd E Ht Ho.
  assert (By : by_id types) by (intros id svc dt H; apply (Hk _ _ _ H)).
  destruct (decoded_source _ _ _ _ E) as (Hs & Hf).
  assert (H : dt_id (rx_datatype t) = h_dtid (rx_header t) /\ dt_service (rx_datatype t) = h_service (rx_header t) /\
              rx_header t = set_message_id fresh_header (f_id f)).
  { unfold from_frames in E. apply bind_ok in E as (tid & _ & E). apply bind_ok in E as (u & _ & E).
    set (h := set_message_id fresh_header (f_id f)) in *. clearbody h. destruct (types (h_dtid h) (h_service h)) as [dt|] eqn:Et; [|discriminate].
    apply bind_ok in E as (p & _ & E). apply bind_ok in E as ([v rest] & _ & E). injection E as <-. cbn [rx_header rx_datatype].
    destruct (Hk _ _ _ Et) as (K1 & K2). rewrite K1, K2. destruct h; auto. }
  destruct H as (H1 & H2 & H3). unfold type_of in Ht. injection Ht as T1 T2.
  assert (Hsv : h_service (rx_header t) = false) by congruence.
  assert (Hdt : h_dtid (rx_header t) = d) by congruence.
  split; [exact Hsv|]. split; [|exact Hdt].
  assert (Hsrc : (1 <= f_id f mod 128 < 128)%N).
  { pose proof (N.mod_lt (f_id f) 128). destruct (N.eqb_spec (f_id f mod 128) 0) as [Z|Z]; [|lia]. exfalso.
    rewrite Hsv in Hf. rewrite H3 in Hdt. unfold set_message_id in Hdt. rewrite <- Hf in Hdt.
    change 0x7F%N with (2 ^ 7 - 1)%N in Hdt. rewrite land_mask in Hdt. change (2 ^ 7)%N with 128%N in Hdt. rewrite Z in Hdt. cbn [N.eqb h_dtid] in Hdt.
    change 3%N with (2 ^ 2 - 1)%N in Hdt. rewrite land_mask in Hdt. change (2 ^ 2)%N with 4%N in Hdt.
    pose proof (N.mod_lt (N.shiftr (f_id f) 8) 4). lia. }
  pose proof (decoded_ours (f_id f mod 128) d Hsrc types f fs t By E Hsv) as O.
  assert (Oo : ours (f_id f mod 128) d (rx_header t) = true).
  { unfold ours. rewrite Hsv, Hs, Hdt. cbn [negb andb optN_eqb]. rewrite !N.eqb_refl. reflexivity. }
  rewrite Oo in O. rewrite Hs. f_equal. apply Ho. unfold of_type. symmetry in O. exact O.
Qed.

Definition type_of_b (b : bcast) : typeid := (dt_id (b_type b), dt_service (b_type b)).
Lemma those_in {X} (x : X) xs oks : In x (those xs oks) -> In x xs.
Proof.
  unfold those. intros H. apply in_map_iff in H as ([y ok] & <- & H). apply filter_In in H as (H & _). exact (in_combine_l _ _ _ _ H).
Qed.
Lemma casts_id d ins b : In b (casts d ins) -> dt_id (b_type b) = d.
Proof.
  unfold casts. intros H. apply in_flat_map in H as (i & _ & H). destruct i as [op| | | |]; try destruct H. destruct op; try destruct H.
  destruct (N.eqb_spec (dt_id dt) d); [|destruct H]. destruct H as [<-|[]]. assumption.
Qed.
Lemma output clk status status_dt types second node_info p tick interval info fuel turns loops now s tail
    A insA insA1 a d out oks gs blocks :
  n_id (ran A insA) = Some a -> (1 <= a < 128)%N -> (4 <= d)%N ->
  leaves_type d (st_beh A) -> dt_id (st_status_dt A) <> d -> Forall (fit types) (casts d insA1) ->
  bus (n_log (ran A (insA ++ insA1))) = bus (n_log (ran A insA)) ++ out ->
  outcomes d (n_log (ran A (insA ++ insA1))) = outcomes d (n_log (ran A insA)) ++ oks ->
  Forall loggable gs -> gs <> [] -> (length tail < 20)%nat -> only_speaker a d gs ->
  Forall2 same_frame (filter (of_type a d) out) (filter (of_type a d) (map as_heard (filter c_ext gs))) ->
  by_key types -> snd info = true -> (2 < fuel)%nat ->
  Forall2 (fun b bytes => data_field p (b_type b) /\ holds p (b_value b) bytes) (those (casts d insA1) oks) blocks ->
  convert clk status status_dt types second node_info (Some p) (recorded gs ++ tail) d tick interval info fuel turns loops now = (s, Some (Ok tt)) ->
  written (Some p) (n_log s) = concat blocks.
Proof.
  intros Hid Ha Hd Hl Hst Hfit Hbus Hout Hlog Hne Ht Honly Hsame Hk Hinfo Hfuel Hdata Hc.
  destruct gs as [|g gs]; [congruence|]. clear Hne.
  destruct (converts _ _ _ _ _ _ _ _ _ _ _ _ _ _ _ _ _ _ _ _ Hlog Ht Hc) as ((ins & k & Es & J & Ef & Hok) & _).
  specialize (Hok eq_refl). set (X := converter clk status status_dt types second node_info (Some p) interval info fuel) in *.
  set (add := IOp (NAddHandler (Some (d, false)) false)) in *.
  assert (Eall : frames_in ins = map (fun g => (c_ext g, as_heard g)) (shifted now (g :: gs))).
  { rewrite Ef, Hok. apply firstn_all2. rewrite map_length. unfold shifted. rewrite map_length. lia. }
  assert (Eh : heard ins = map as_heard (filter c_ext (shifted now (g :: gs)))).
  { unfold heard. rewrite Eall. clear. generalize (shifted now (g :: gs)). intros l. induction l as [|x l IH]; [reflexivity|].
    cbn [map filter fst]. destruct (c_ext x); cbn [map snd]; rewrite IH; reflexivity. }
  pose proof (shifted_same now (g :: gs)) as Sh.
  assert (Hf : Forall2 same_frame (map as_heard (filter c_ext (g :: gs))) (heard ins)).
  { rewrite Eh. clear - Sh. apply heard_same. induction Sh as [|x y xs ys E F IH]; [constructor|]. cbn [filter].
    pose proof E as (_ & _ & Ex & _). rewrite Ex. destruct (c_ext x); [constructor; assumption|exact IH]. }
  assert (Hs : steady (st_beh X) ins).
  { split.
    - intros l op c. cbn. unfold callbacks. destruct (last l _); try (intros []). destruct (Nat.eqb _ _); intros [].
    - intros i Hi. pose proof (proj1 (Forall_forall _ _) J i Hi) as Q. cbv beta in Q. destruct i; try exact I; destruct Q. }
  destruct (typed_refused A insA insA1 a d out oks X [add] ins Hid Ha Hl Hst Hfit Hbus Hout eq_refl Hs) as (_ & _ & rs & Hrs & Hh).
  { exact Hfuel. }
  { intros id svc dt E. apply (Hk _ _ _ E). }
  { eapply same_frames_trans; [exact Hsame|]. apply filter_same_type. exact Hf. }
  change ([add] ++ ins) with (add :: ins) in Hh. rewrite <- Es in Hh.
  change (handled (n_log (ran X [add]))) with (@nil (handler * rx)) in Hh. cbn [filter app] in Hh.
  change (handlers_of (ran X [add])) with [Handler 0 (Some info) false; Handler 1 (Some (d, false)) false] in Hh.
  rewrite written_handled. rewrite <- (flat_map_filter (said_of a d)).
  2:{ destruct (calls_registered X (no_ops_of X (fun l => ltac:(cbn; unfold callbacks; destruct (last l _); try reflexivity; destruct (Nat.eqb _ _); reflexivity)))
        [[Handler 0 (Some info) false; Handler 1 (Some (d, false)) false]] 0 [add] (conj eq_refl eq_refl) eq_refl ins J) as (_ & C).
      change ([add] ++ ins) with (add :: ins) in C. rewrite <- Es in C.
      intros [hd t] Hin Hsaid. pose proof (proj1 (Forall_forall _ _) C _ Hin) as (C1 & C2 & f & fs & f' & C3 & C4 & C5).
      cbn [fst snd] in *. destruct (Nat.eqb_spec (hd_id hd) 1) as [E1|E1]; [|reflexivity]. exfalso.
      destruct C1 as [<-|[<-|[]]]; [discriminate E1|]. cbn [accepts hd_type] in C2. apply typeid_eqb_spec in C2. symmetry in C2.
      destruct (decoded_speaker types a d f fs t Hk Hd C3 C2) as (D1 & D2 & D3).
      - intros O. change (heard (add :: ins)) with (heard ins) in C4. rewrite Eh in C4. apply in_map_iff in C4 as (y & Ey & Hy).
        apply filter_In in Hy as (Hy & Ex).
        assert (exists x, In x (g :: gs) /\ same_can x y) as (x & Hx & Sxy).
        { clear - Sh Hy. induction Sh as [|x y' xs ys E F IH]; [destruct Hy|]. destruct Hy as [->|Hy]; [exists x; split; [left; reflexivity|exact E]|].
          destruct (IH Hy) as (z & Hz & Sz). exists z. split; [right; exact Hz|exact Sz]. }
        destruct Sxy as (S1 & S2 & S3 & S4). assert (Ei : f_id f = c_id x) by (rewrite <- C5, <- Ey; exact S1).
        rewrite Ei. apply (Honly x Hx); [congruence|]. unfold of_type in *. cbn [as_heard f_id] in *. rewrite Ei in O. exact O.
      - unfold said_of, said_by in Hsaid. cbn [snd] in Hsaid. rewrite D1, D2, D3 in Hsaid. cbn [negb andb optN_eqb] in Hsaid. rewrite !N.eqb_refl in Hsaid. discriminate. }
  rewrite Hh. clear Hh.
  assert (Hty : Forall (fun b => type_of_b b = (d, false)) (those (casts d insA1) oks)).
  { apply Forall_forall. intros b Hb. apply those_in in Hb. pose proof (proj1 (Forall_forall _ _) Hfit b Hb) as (_ & _ & Hb3 & _).
    destruct (Hk _ _ _ Hb3) as (_ & K). unfold type_of_b. rewrite K, (casts_id _ _ _ Hb). reflexivity. }
  revert blocks Hdata. induction Hrs as [|b r bs rs C Hrs IH]; intros blocks Hdata.
  - inversion Hdata. reflexivity.
  - inversion Hdata as [|b' bytes bs' blocks' (D1 & D2) Hdata']; subst. cbn [flat_map concat]. rewrite flat_map_app. rewrite (IH (Forall_inv_tail Hty) _ Hdata'). f_equal.
    destruct C as (C1 & C2 & C3 & C4).
    apply Forall_cons_iff in Hty as (Hty & _). unfold type_of_b in Hty. injection Hty as T1 T2.
    unfold to_all. cbn [filter accepts hd_type]. unfold type_of. rewrite C3, T1, T2.
    assert (typeid_eqb info (d, false) = false) as -> by (unfold typeid_eqb; cbn [fst snd]; rewrite Hinfo; apply andb_false_r).
    assert (typeid_eqb (d, false) (d, false) = true) as -> by (unfold typeid_eqb; cbn [fst snd]; rewrite N.eqb_refl; reflexivity).
    cbn [map flat_map fst snd hd_id Nat.eqb]. rewrite app_nil_r, (data_read p (b_type b) (b_value b) (rx_value r) bytes D1 D2 C4). reflexivity.
Qed.

Lemma output_on_record clk status status_dt types second node_info p tick interval info fuel turns loops now s tail
    A insA insA1 a d gs blocks :
  on_record types p A insA insA1 a d gs blocks -> (length tail < 20)%nat ->
  by_key types -> snd info = true -> (2 < fuel)%nat ->
  convert clk status status_dt types second node_info (Some p) (recorded gs ++ tail) d tick interval info fuel turns loops now = (s, Some (Ok tt)) ->
  written (Some p) (n_log s) = concat blocks.
Proof.
  intros (H1 & H2 & H3 & H4 & H5 & H6 & H7 & H8 & H9 & out & oks & H10 & H11 & H12 & H13) T K I0 Fu C.
  exact (output clk status status_dt types second node_info p tick interval info fuel turns loops now s tail A insA insA1 a d out oks gs blocks
    H1 H2 H3 H4 H5 H6 H10 H11 H7 H8 T H9 H12 K I0 Fu H13 C).
Qed.

Lemma cut_off clk status status_dt types second node_info p tick interval info fuel turns loops now d gs n k :
  Forall loggable gs -> complete gs n k -> (n <= length (recorded gs))%nat -> (20 <= n - length (recorded (firstn k gs)))%nat ->
  let out := convert clk status status_dt types second node_info p (firstn n (recorded gs)) d tick interval info fuel turns loops now in
  snd out = Some (Err DriverError) /\ written p (n_log (fst out)) = [].
Proof.
  intros F C L T. cbv zeta. unfold convert. rewrite (truncated_in_data gs n k now F C L T). split; reflexivity.
Qed.

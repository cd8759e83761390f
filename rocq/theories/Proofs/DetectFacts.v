(** Detecting the nodes that send a message. *)
From Verif.Base Require Import Prelude Bits.
From Verif.Model Require Import Types Codec MsgId Frames TransferManager Sched Node Detect.
From Verif.Spec Require Import CodecSpec MsgIdSpec FrameSpec ReassemblySpec SendingSpec NodeSpec CallSpec StreamSpec RegistrySpec CanlogSpec.
From Verif.Proofs Require Import ManagerFacts SchedFacts NodeFacts RequestFacts NodeRequests NodeDispatch NodeTop StreamFacts RegistryFacts CanlogFacts.
Local Open Scope Z_scope.

Section Detect.
  Variable B : station.
  Variable receive : list nobs -> nat -> Z -> res (option (bool * frame)).
  Variable turns : nat.
  Hypothesis steadily : forall l op c, In (op, c) (fst (st_beh B l)) -> keeps_handlers op.
  Notation fuel := (st_fuel B).
  Notation once := (execute_once (st_clk B) (st_beh B) (st_drv B) (st_status B) (st_status_dt B) (st_types B) (st_second B) receive fuel).
  Notation looped := (spin_loop (st_clk B) (st_beh B) (st_drv B) (st_status B) (st_status_dt B) (st_types B) (st_second B) receive turns fuel).
  Notation spun := (spin (st_clk B) (st_beh B) (st_drv B) (st_status B) (st_status_dt B) (st_types B) (st_second B) receive turns fuel).
  Notation history := (node_history (st_clk B) (st_beh B) (st_drv B) (st_status B) (st_status_dt B) (st_types B) (st_second B) fuel).
  Notation input := (apply_input (st_clk B) (st_beh B) (st_drv B) (st_status B) (st_status_dt B) (st_types B) (st_second B) fuel).
  Notation detected := (detect (st_clk B) (st_beh B) (st_drv B) (st_status B) (st_status_dt B) (st_types B) (st_second B) receive turns fuel).

  (** *** What [spin] does *)
  Lemma once_inputs dl s got n s' got' r : once dl s got n = (s', got', r) ->
    exists ins, s' = history s ins /\ got' = got ++ frames_in ins /\ just_spins ins.
  Proof.
    unfold execute_once. intros H. destruct (npoll _ _ _ _ _ _ _ s) as [s1 [next|x]] eqn:Ep.
    2:{ injection H as <- <- <-. exists [IPoll]. cbn. rewrite Ep, app_nil_r. repeat split; auto. repeat constructor. }
    cbn [nread] in H. set (s2 := set_reads s1 _) in *.
    assert (E2 : history s [IPoll; IRead] = s2) by (cbn; rewrite Ep; reflexivity).
    destruct (receive _ _ _) as [[[x f]|]|x].
    - assert (E3 : history s [IPoll; IRead; IFrame x f] = fst (recv_frame (st_clk B) (st_beh B) (st_drv B) (st_types B) (st_second B) fuel s2 x f)).
      { change [IPoll; IRead; IFrame x f] with ([IPoll; IRead] ++ [IFrame x f]).
        unfold node_history in *. rewrite fold_left_app, E2. reflexivity. }
      destruct (recv_frame _ _ _ _ _ _ s2 x f) as [s3 [e|]]; injection H as <- <- <-;
        exists [IPoll; IRead; IFrame x f]; cbn [fst] in E3; rewrite E3; repeat split; repeat constructor.
    - injection H as <- <- <-. exists [IPoll; IRead]. rewrite E2. cbn. rewrite app_nil_r. repeat split; repeat constructor.
    - injection H as <- <- <-. exists [IPoll; IRead]. rewrite E2. cbn. rewrite app_nil_r. repeat split; repeat constructor.
  Qed.
  Lemma history_app s a b : history s (a ++ b) = history (history s a) b.
  Proof. unfold node_history. apply fold_left_app. Qed.
  Lemma read_inputs s ins : history s (IRead :: ins) = history (set_reads s (S (n_reads s))) ins.
  Proof. reflexivity. Qed.
  Lemma spins_app a b : just_spins a -> just_spins b -> just_spins (a ++ b).
  Proof. intros. apply Forall_app. split; assumption. Qed.
  Lemma loop_inputs n dl : forall s got k s' got' r,
    spin_loop (st_clk B) (st_beh B) (st_drv B) (st_status B) (st_status_dt B) (st_types B) (st_second B) receive n fuel dl s got k = (s', got', r) ->
    exists ins, s' = history s ins /\ got' = got ++ frames_in ins /\ just_spins ins.
  Proof.
    induction n as [|n IH]; cbn [spin_loop]; intros s got k s' got' r H.
    { injection H as <- <- <-. exists []. rewrite app_nil_r. repeat split. constructor. }
    cbn [nread] in H.
    destruct (match dl with Some d => _ <? d | None => true end).
    - destruct (once dl _ got k) as [[s2 got2] [c|x]] eqn:Eo; apply once_inputs in Eo as (i1 & -> & -> & J1).
      + destruct (IH _ _ _ _ _ _ H) as (i2 & -> & -> & J2). exists (IRead :: i1 ++ i2).
        rewrite read_inputs, history_app. cbn [frames_in]. rewrite frames_in_app, app_assoc. repeat split.
        constructor; [exact Logic.I|apply spins_app; assumption].
      + injection H as <- <- <-. exists (IRead :: i1). rewrite read_inputs. repeat split. constructor; [exact Logic.I|exact J1].
    - injection H as <- <- <-. exists [IRead]. rewrite app_nil_r. repeat split. repeat constructor.
  Qed.
  Lemma spin_inputs s t s' got r : t <> 0 -> spun s (Some t) = (s', got, r) -> exists ins, s' = history s ins /\ got = frames_in ins /\ just_spins ins.
  Proof.
    intros Ht. unfold spin. destruct (Z.eqb_spec t 0); [contradiction|]. cbn [nread]. intros H.
    destruct (once _ _ [] 0) as [[s2 got2] [c|x]] eqn:Eo; apply once_inputs in Eo as (i1 & -> & -> & J1).
    - destruct (looped _ _ _ 1) as [[s3 got3] r3] eqn:El. apply loop_inputs in El as (i2 & -> & -> & J2).
      exists (IRead :: i1 ++ i2). rewrite read_inputs, history_app. cbn [frames_in]. rewrite frames_in_app.
      destruct r3; injection H as <- <- <-; repeat split; (constructor; [exact Logic.I|apply spins_app; assumption]).
    - injection H as <- <- <-. exists (IRead :: i1). rewrite read_inputs. repeat split. constructor; [exact Logic.I|exact J1].
  Qed.

  (** *** The log grows *)
  Lemma log_recv l s t : (exists l', n_log s = l ++ l') -> exists l', n_log (fst (recv_transfer (st_clk B) (st_beh B) (st_drv B) (st_second B) fuel s t)) = l ++ l'.
  Proof.
    intros H. unfold recv_transfer. destruct (_ && _ && _).
    - destruct (find_request t (n_requests s)) as [k|]; auto.
      destruct (dget key_eqb (n_callbacks s) k) as [[r ev]|]; auto.
      set (s1 := match cancel ev (n_queue s) with Some _ => _ | None => s end).
      assert (H1 : exists l', n_log s1 = l ++ l') by (unfold s1; destruct (cancel ev (n_queue s)); exact H).
      apply (log_see l s1 (OResponse r t)) in H1.
      apply (log_react (st_clk B) (st_beh B) (st_drv B) (st_second B)) in H1.
      destruct (react _ _ _ _ (see s1 (OResponse r t))) as [s2 [y|x]]; cbn [fst] in *; auto.
      destruct (negb _); auto. destruct (negb _); auto.
    - destruct (_ || _ || _); auto.
      apply (call_handlers_ind (st_clk B) (st_beh B) (st_drv B) (st_second B) (fun s => exists l', n_log s = l ++ l')); auto.
      + intros. now apply log_nop.
      + intros. now apply log_see.
      + intros s' d v de ti pr c H'. unfold respond. destruct (anonymous s'); auto.
        destruct (send _ _ _ _ _ _ _ _) as [s2 r] eqn:E. apply send_shape in E.
        destruct E as (fs & err & -> & _ & Hr). apply (log_see l s' (OSend None (sent_header {| h_priority := pr; h_service := true; h_request := false; h_source := n_id s'; h_dest := de; h_dtid := 0; h_discriminator := None |} d) ti fs err)) in H'. destruct r; exact H'.
  Qed.
  Lemma log_history s ins : exists l, n_log (history s ins) = n_log s ++ l.
  Proof.
    apply (history_ind (st_clk B) (st_beh B) (st_drv B) (st_status B) (st_status_dt B) (st_types B) (st_second B) (fun x => exists l, n_log x = n_log s ++ l)); auto.
    - intros. now apply log_nop.
    - intros. now apply log_recv.
    - intros. now apply log_exec.
    - exists []. symmetry. apply app_nil_r.
  Qed.

  (** *** Who is called *)
  Lemma spins_kept L c ins : forall s, just_spins ins -> kept L c s -> kept L c (history s ins).
  Proof.
    unfold node_history. induction ins as [|i ins IH]; intros s J K; [exact K|]. cbn [fold_left]. apply Forall_cons_iff in J as (Ji & J). apply (IH _ J).
    apply (kept_input (st_clk B) (st_beh B) (st_drv B) (st_status B) (st_status_dt B) (st_types B) (st_second B) steadily L c); [|exact K].
    destruct i; try exact Logic.I; destruct Ji.
  Qed.
  Lemma spins_called L c ins : forall s, just_spins ins -> kept L c s -> exists hs,
    handled (n_log (history s ins)) = handled (n_log s) ++ hs /\ Forall (fun p => In (fst p) (nth c L []) /\ accepts (fst p) (snd p) = true) hs.
  Proof.
    induction ins as [|i ins IH] using rev_ind; intros s J K.
    { exists []. rewrite app_nil_r. split; [reflexivity|constructor]. }
    apply Forall_app in J as (J & Ji). apply Forall_cons_iff in Ji as (Ji & _). destruct (IH s J K) as (hs & E & F). rewrite history_app.
    pose proof (spins_kept L c ins s J K) as K1. set (s1 := history s ins) in *.
    assert (Quiet : match i with IFrame true _ | ITransfer _ => False | _ => True end -> handled (n_log (history s1 [i])) = handled (n_log s1)).
    { intros Hi. apply (silent_input (st_clk B) (st_beh B) (st_drv B) (st_status B) (st_status_dt B) (st_types B) (st_second B)); [exact Hi|reflexivity]. }
    assert (Same : handled (n_log (history s1 [i])) = handled (n_log s1) -> exists hs,
      handled (n_log (history s1 [i])) = handled (n_log s) ++ hs /\ Forall (fun p => In (fst p) (nth c L []) /\ accepts (fst p) (snd p) = true) hs).
    { intros X. exists hs. split; [rewrite X; exact E|exact F]. }
    destruct i as [op|[] f| | |]; try (destruct Ji); try (apply Same, Quiet; exact Logic.I).
    cbn [node_history fold_left apply_input] in *. unfold recv_frame in *. cbn [negb nread] in *.
    destruct (receive_frame (n_manager (set_reads s1 (S (n_reads s1)))) f (st_clk B (n_reads s1))) as [m [[|f0 fs]|]]; try (apply Same; reflexivity).
    destruct (from_frames (st_types B) (f0 :: fs)) as [t|]; [|apply Same; reflexivity].
    destruct (recv_registered B steadily L c fuel (set_manager (set_reads s1 (S (n_reads s1))) m) t K1) as (hs2 & E2 & F2).
    exists (hs ++ hs2). split; [rewrite E2; cbn [n_log set_manager set_reads]; rewrite E, app_assoc; reflexivity|]. apply Forall_app. split; [exact F|].
    eapply Forall_impl; [|exact F2]. intros p (X1 & X2 & X3). split; [exact X1|rewrite X3; exact X2].
  Qed.

  (** *** Adding and removing the handler *)
  Lemma added s esc : registry s ->
    let s1 := fst (apply_nop (st_clk B) (st_drv B) (st_second B) s (NAddHandler (Some esc) false)) in
    registry s1 /\ handlers_of s1 = handlers_of s ++ [Handler (n_hds s) (Some esc) false] /\ n_log s1 = n_log s.
  Proof.
    intros R. cbv zeta. split; [exact (proj1 (operation (st_clk B) (st_drv B) (st_second B) s (NAddHandler (Some esc) false) R))|]. split; [|reflexivity].
    cbn [apply_nop fst andb]. unfold handlers_of at 1, handler_list at 1. cbn [n_lists n_cur set_lists]. rewrite update_list_nth by apply R.
    rewrite Nat.eqb_refl. reflexivity.
  Qed.
  Lemma removed s l i : registry s -> handlers_of s = l ++ [i] -> Forall (fun hd => (hd_id hd < hd_id i)%nat) l ->
    exists s', apply_nop (st_clk B) (st_drv B) (st_second B) s (NRemoveHandler (hd_id i)) = (s', None) /\ handlers_of s' = l /\ n_log s' = n_log s.
  Proof.
    intros R E F. cbn [apply_nop]. fold (handlers_of s). rewrite (remove_entry_filter _ _ (rg_order _ R)), E.
    rewrite existsb_app. cbn [existsb]. rewrite Nat.eqb_refl, orb_true_r. rewrite filter_app. cbn [filter]. rewrite Nat.eqb_refl. cbn [negb]. rewrite app_nil_r.
    rewrite filter_same_list.
    2:{ intros y Y. pose proof (proj1 (Forall_forall _ _) F y Y) as X. cbv beta in X. destruct (Nat.eqb_spec (hd_id y) (hd_id i)); [lia|reflexivity]. }
    eexists. split; [reflexivity|]. split; [|reflexivity].
    unfold handlers_of at 1, handler_list at 1. cbn [n_lists n_cur set_lists]. rewrite update_list_nth by apply R. rewrite Nat.eqb_refl. reflexivity.
  Qed.
  Lemma noticed_in i l n : In n (noticed i l) <-> exists hd t, In (hd, t) (handled l) /\ hd_id hd = i /\ h_source (rx_header t) = n.
  Proof.
    unfold noticed. rewrite in_flat_map. split.
    - intros (o & I & H). destruct o; try destruct H. destruct (Nat.eqb_spec (hd_id hd) i); [|destruct H]. destruct H as [H|[]].
      exists hd, t. split; [|auto]. clear - I. induction l as [|o l IH]; [destruct I|]. destruct I as [->|I]; [left; reflexivity|].
      specialize (IH I). destruct o; cbn [handled]; auto. right. exact IH.
    - intros (hd & t & I & H & S0). exists (OHandled hd t). split; [|rewrite H, Nat.eqb_refl; left; exact S0].
      clear - I. induction l as [|o l IH]; [destruct I|]. destruct o; cbn [handled] in I; try (right; apply IH; exact I).
      destruct I as [I|I]; [left; congruence|right; apply IH; exact I].
  Qed.

  (** The handlers are what they were, and the result is that of [spin]. *)
  Lemma detects s esc t s3 r : registry s -> t <> 0 -> detected esc t s = (s3, r) ->
    let s1 := fst (apply_nop (st_clk B) (st_drv B) (st_second B) s (NAddHandler (Some esc) false)) in
    handlers_of s3 = handlers_of s /\
    exists ins s2 got o, just_spins ins /\ s2 = history s1 ins /\ got = frames_in ins /\ spun s1 (Some t) = (s2, got, o) /\ n_log s3 = n_log s2 /\
      exists l hs, n_log s2 = n_log s ++ l /\ handled (n_log s2) = handled (n_log s) ++ hs /\ handled l = hs /\
        Forall (fun p => In (fst p) (handlers_of s ++ [Handler (n_hds s) (Some esc) false]) /\ accepts (fst p) (snd p) = true) hs /\
        r = match o with Ok _ => Ok (noticed (n_hds s) l) | Err x => Err x end.
  Proof.
    intros R T H. cbv zeta. unfold detect in H. destruct (added s esc R) as (R1 & A1 & L1).
    set (s1 := fst (apply_nop _ _ _ s (NAddHandler (Some esc) false))) in *.
    destruct (spun s1 (Some t)) as [[s2 got] o] eqn:Es. pose proof Es as Es'. apply spin_inputs in Es' as (ins & E2 & Eg & J); [|exact T].
    assert (K : kept (n_lists s1) (n_cur s1) s1) by (split; reflexivity).
    destruct (spins_called (n_lists s1) (n_cur s1) ins s1 J K) as (hs & Eh & F).
    apply (spins_kept _ _ _ _ J) in K. rewrite <- E2 in *. destruct K as (K1 & K2).
    assert (A2 : handlers_of s2 = handlers_of s ++ [Handler (n_hds s) (Some esc) false]) by (rewrite <- A1; unfold handlers_of, handler_list; congruence).
    assert (R2 : registry s2).
    { constructor.
      - rewrite K1, K2. apply R1.
      - rewrite A2, <- A1. apply R1.
      - rewrite E2. clear - R1 steadily. revert R1. generalize s1. intros u R1.
        assert (G : registry (history u ins)); [|apply G].
        unfold node_history. revert u R1. induction ins as [|i ins IH]; intros u R1; [exact R1|]. cbn [fold_left]. apply IH.
        apply (through_input (st_clk B) (st_beh B) (st_drv B) (st_status B) (st_status_dt B) (st_types B) (st_second B) (fun _ => True) registry); auto.
        + intros s0 op _ X. exact (proj1 (operation (st_clk B) (st_drv B) (st_second B) s0 op X)).
        + exact registry_view.
        + destruct i; exact Logic.I. }
    destruct (removed s2 (handlers_of s) (Handler (n_hds s) (Some esc) false) R2 A2 (rg_new _ R)) as (s' & Er & A3 & L3). cbn [hd_id] in Er.
    rewrite Er in H. injection H as <- <-. split; [exact A3|]. exists ins, s2, got, o. split; [exact J|]. split; [exact E2|]. split; [exact Eg|]. split; [reflexivity|].
    split; [exact L3|].
    destruct (log_history s1 ins) as (l & El). rewrite <- E2, L1 in El. rewrite L1 in Eh. exists l, hs. split; [exact El|]. split; [exact Eh|].
    split; [rewrite El, handled_app in Eh; apply app_inv_head in Eh; exact Eh|]. split; [rewrite <- A1; exact F|].
    try change (n_log s1) with (n_log s); cbn [fst] in *; try rewrite L1; rewrite El, skipn_app, skipn_all, Nat.sub_diag. reflexivity.
  Qed.

  (** Each of the nodes found has sent such a message. *)
  Lemma found s esc t s3 ns : registry s -> t <> 0 -> detected esc t s = (s3, Ok ns) -> forall n, In n ns ->
    exists l hd m, n_log s3 = n_log s ++ l /\ In (OHandled hd m) l /\ type_of m = esc /\ h_source (rx_header m) = n.
  Proof.
    intros R T H n I. destruct (detects s esc t s3 (Ok ns) R T H) as (_ & ins & s2 & got & o & J & _ & _ & _ & L3 & l & hs & El & _ & Eh & F & E).
    destruct o as [c|x]; [|discriminate]. injection E as ->. apply noticed_in in I as (hd & m & I & Hi & Hs). exists l, hd, m. rewrite L3. split; [exact El|].
    rewrite Eh in I. pose proof (proj1 (Forall_forall _ _) F _ I) as (I2 & A). cbn [fst snd] in *. split.
    - rewrite <- Eh in I. clear - I. induction l as [|o l IH]; [destruct I|]. destruct o; cbn [handled] in I; try (right; apply IH; exact I).
      destruct I as [I|I]; [left; congruence|right; apply IH; exact I].
    - split; [|exact Hs]. apply in_app_or in I2 as [I2|[<-|[]]].
      + pose proof (proj1 (Forall_forall _ _) (rg_new _ R) hd I2). cbv beta in *. lia.
      + cbn [accepts hd_type] in A. apply typeid_eqb_eq in A. symmetry. exact A.
  Qed.
End Detect.

(** All that do are found. *)
Lemma finds B receive turns ins0 esc t s3 ns got c s2 a sds received sd : 
  st_catch B = true -> (forall l op c, In (op, c) (fst (st_beh B l)) -> keeps_handlers op) ->
  (S (length (handlers_of (ran B ins0))) < st_fuel B)%nat -> t <> 0 ->
  detect (st_clk B) (st_beh B) (st_drv B) (st_status B) (st_status_dt B) (st_types B) (st_second B) receive turns (st_fuel B) esc t (ran B ins0) = (s3, Ok ns) ->
  spin (st_clk B) (st_beh B) (st_drv B) (st_status B) (st_status_dt B) (st_types B) (st_second B) receive turns (st_fuel B)
    (ran B (ins0 ++ [IOp (NAddHandler (Some esc) false)])) (Some t) = (s2, got, c) ->
  Forall2 (heard_as (st_types B) a) sds received -> filter (from_node a) (map snd (filter fst got)) = concat received ->
  In sd sds -> is_message sd = true -> (dt_id (s_datatype sd), dt_service (s_datatype sd)) = esc -> In (Some a) ns.
Proof.
  intros C S0 Fu T H Sp F2 Fl I M Ty.
  destruct (detects B receive turns S0 (ran B ins0) esc t s3 (Ok ns) (registry_ran B ins0) T H) as (_ & ins & s2' & got' & o & J & E2 & Eg & Sp' & _ & l & hs & El & Eh & Hl & _ & E).
  destruct o as [c0|x]; [|discriminate]. injection E as ->.
  set (add := IOp (NAddHandler (Some esc) false)) in *.
  assert (E1 : ran B (ins0 ++ [add]) = fst (apply_nop (st_clk B) (st_drv B) (st_second B) (ran B ins0) (NAddHandler (Some esc) false))) by (rewrite ran_snoc; reflexivity).
  destruct (added B (ran B ins0) esc (registry_ran B ins0)) as (_ & A1 & L1). rewrite <- E1 in *.
  rewrite Sp in Sp'. injection Sp' as <- <- _.
  assert (E3 : s2 = ran B ((ins0 ++ [add]) ++ ins)) by (rewrite E2; unfold ran, node_history; rewrite !fold_left_app; reflexivity).
  destruct (stream_heard B (ins0 ++ [add]) ins a sds received C) as (rs & Fr & Eq).
  - split; [exact S0|]. intros i Hi. pose proof (proj1 (Forall_forall _ _) J i Hi) as X. cbv beta in X. destruct i; try exact Logic.I; destruct X.
  - rewrite A1, app_length. cbn [length]. lia.
  - exact F2.
  - unfold heard. rewrite <- Eg. exact Fl.
  - rewrite <- E3, Eh, L1, filter_app in Eq. apply app_inv_head in Eq.
    assert (Im : In sd (filter is_message sds)) by (apply filter_In; auto).
    assert (X : exists r, In r rs /\ faithful sd r).
    { clear - Fr Im. induction Fr as [|x y xs ys H0 F0 IH]; [destruct Im|]. destruct Im as [->|Im]; [exists y; split; [left; reflexivity|exact H0]|].
      destruct (IH Im) as (r & A & B0). exists r. split; [right; exact A|exact B0]. }
    destruct X as (r & Ir & Fa). apply noticed_in.
    set (hd := Handler (n_hds (ran B ins0)) (Some esc) false) in *. exists hd, r. rewrite Hl. split.
    + assert (Y : In (hd, r) (filter (said_by a) hs)); [|apply filter_In in Y; apply Y]. rewrite Eq. apply in_flat_map. exists r. split; [exact Ir|].
      unfold to_all. apply in_map_iff. exists hd. split; [reflexivity|]. apply filter_In. split; [rewrite A1; apply in_or_app; right; left; reflexivity|].
      cbn [accepts hd_type hd]. unfold hd. apply typeid_eqb_eq. unfold type_of. rewrite (f_datatype _ _ Fa). symmetry. exact Ty.
    + split; [reflexivity|]. rewrite (f_header _ _ Fa).
      clear - F2 I. induction F2 as [|x y xs ys H0 F0 IH]; [destruct I|]. destruct I as [->|I]; [apply H0|apply IH, I].
Qed.

(** Proofs about the link between a socket and a serial port (C126). *)
From Verif.Base Require Import Prelude.
From Verif.Model Require Import Serial TcpLink.
From Verif.Spec Require Import SerialSpec TcpSpec.
From Verif.Proofs Require Import SerialFacts.

Lemma payload_app a b : payload (a ++ b) = payload a ++ payload b.
Proof. apply flat_map_app. Qed.

Lemma mixed_app a b c a' b' c' : mixed a b c -> mixed a' b' c' -> mixed (a ++ a') (b ++ b') (c ++ c').
Proof. induction 1; intros M; cbn; auto; constructor; auto. Qed.
Lemma mixed_l a : mixed a [] a.
Proof. induction a; constructor; auto. Qed.
Lemma mixed_r b : mixed [] b b.
Proof. induction b; constructor; auto. Qed.

Section Facts.
  Variables (i target : N) (dev : Z) (lock : N) (logging : bool) (baud : Z).
  Notation step := (round_step (Some i) target dev lock logging).
  Notation run := (run_link (Some i) target dev lock logging baud).
  Notation recv := (received_in (Some i) target).

  Definition log_of (l : link) := p_log (l_port l).

  Record good (l : link) (full : bool) : Prop := {
    g_sent : exists k, payload (sent_in (log_of l)) = firstn k (l_in l);
    g_sent_alive : l_end l = None -> payload (sent_in (log_of l)) = l_in l;
    g_read : read_in (log_of l) ++ p_buf (l_port l) = recv (log_of l);
    g_out : full = true -> l_out l = read_in (log_of l);
    g_out_part : exists k, (k <= length (read_in (log_of l)))%nat /\ (length (l_out l) <= k)%nat;
    g_file : l_end l = None -> logging = true -> mixed (l_in l) (read_in (log_of l)) (l_file l);
    g_device : Forall (for_device (Some i) target dev lock baud) (sent_in (log_of l));
    g_baud : p_baud (l_port l) = baud
  }.

  Lemma good_inward l r full : good l full -> l_end l = None -> good (inward (Some i) target dev lock logging l r) full.
  Proof.
    intros G A. unfold inward. destruct (r_recv r) as [[|x b]| |]; try exact G.
    remember (x :: b) as w eqn:Ew. clear x b Ew.
    destruct (write (Some i) target dev lock (l_port l) w (r_write r)) as [p res] eqn:W.
    unfold write in W. destruct (write_fuel_moved (Some i) target dev lock i eq_refl _ _ _ _ _ _ _ (le_n _) W)
      as (d & k & M & FD & PK & RT).
    destruct G as [S SA R O OP F D B]. unfold log_of in *. rewrite B in FD.
    destruct M as (M1 & M2 & M3 & M4 & M5).
    assert (Y : read_in (p_log p) = read_in (p_log (l_port l))).
    { rewrite M1, read_app, M4. apply app_nil_r. }
    assert (RR : read_in (p_log p) ++ p_buf p = recv (p_log p)).
    { rewrite Y, M2, app_assoc, R, M1, recv_app. reflexivity. }
    assert (PP : payload (sent_in (p_log p)) = l_in l ++ firstn k w).
    { rewrite M1, sent_app, payload_app, PK, (SA A). reflexivity. }
    assert (PS : exists k, payload (sent_in (p_log p)) = firstn k (l_in l ++ w)).
    { exists (length (l_in l) + k)%nat. rewrite PP, firstn_app_2. reflexivity. }
    assert (DD : Forall (for_device (Some i) target dev lock baud) (sent_in (p_log p))).
    { rewrite M1, sent_app. apply Forall_app. auto. }
    rewrite Y in RR.
    destruct res as [n|e|]; constructor; unfold log_of; cbn [finished note l_port l_in l_out l_file l_end];
      rewrite ?Y; auto; try discriminate; try congruence.
    - intros _. destruct (RT n eq_refl) as (_ & E). rewrite M1, sent_app, payload_app, E, (SA A). reflexivity.
    - intros _ L. rewrite L. rewrite <- (app_nil_r (read_in (p_log (l_port l)))).
      apply mixed_app; [apply F; assumption|apply mixed_l].
  Qed.

  Lemma good_outward l r full : good l full -> l_end l = None ->
    good (outward (Some i) target dev lock logging l r) (full && match r_send r with Took k => (1024 <=? k)%nat | Refuses _ => false end).
  Proof.
    intros G A. unfold outward.
    destruct (read (Some i) target dev lock (l_port l) 1024 (r_arrive r) (r_spin r) (r_now r) (r_alive r)) as [p res] eqn:E.
    assert (DV : exists d, p_log p = p_log (l_port l) ++ d /\ Forall (for_device (Some i) target dev lock baud) (sent_in d) /\ p_baud p = baud).
    { destruct (sstep_told (Some i) target dev lock i eq_refl (l_port l) (ORead 1024 (r_arrive r) (r_spin r) (r_now r) (r_alive r)))
        as (d & E1 & E2 & E3). cbn [sstep] in E1, E3. rewrite E in E1, E3. cbn [fst] in E1, E3.
      rewrite (g_baud _ _ G) in E2, E3. eauto. }
    apply read_moved in E as (d & p1 & (M1 & M2 & M3 & M4 & M5) & P & R).
    destruct DV as (d' & D1 & D2 & D3). destruct G as [S SA RD O OP F D B]. unfold log_of in *.
    assert (DD : Forall (for_device (Some i) target dev lock baud) (sent_in (p_log p))).
    { rewrite D1, sent_app. apply Forall_app. auto. }
    assert (X : payload (sent_in (p_log p1)) = payload (sent_in (p_log (l_port l)))).
    { rewrite M1, sent_app, payload_app, P. apply app_nil_r. }
    assert (Y : read_in (p_log p1) = read_in (p_log (l_port l))).
    { rewrite M1, read_app, M4. apply app_nil_r. }
    assert (RR : read_in (p_log p1) ++ p_buf p1 = recv (p_log p1)).
    { rewrite Y, M2, app_assoc, RD, M1, recv_app. reflexivity. }
    destruct res as [bs|e|].
    2,3: subst p1; constructor; unfold log_of; cbn [finished l_port l_in l_out l_file l_end];
      rewrite ?X, ?Y; auto; try discriminate;
      [rewrite Y in RR; exact RR|intros H; apply andb_true_iff in H as (H & _); auto].
    destruct R as (R1 & R2 & R3 & R4). specialize (R4 ltac:(lia)).
    assert (X' : payload (sent_in (p_log p)) = payload (sent_in (p_log (l_port l)))).
    { rewrite R1, sent_app, payload_app, X. cbn. apply app_nil_r. }
    assert (Y' : read_in (p_log p) = read_in (p_log (l_port l)) ++ bs).
    { rewrite R1, read_app, Y. cbn. now rewrite app_nil_r. }
    assert (RR' : read_in (p_log p) ++ p_buf p = recv (p_log p)).
    { rewrite Y', <- app_assoc, <- R3, <- Y, RR, R1, recv_app. cbn. now rewrite app_nil_r. }
    destruct bs as [|x b].
    { rewrite app_nil_r in Y'. constructor; unfold log_of; cbn [finished l_port l_in l_out l_file l_end];
        rewrite ?X', ?Y'; auto; try discriminate.
      - rewrite Y' in RR'. exact RR'.
      - intros H; apply andb_true_iff in H as (H & _); auto. }
    remember (x :: b) as w eqn:Ew. clear x b Ew.
    assert (FF : logging = true -> mixed (l_in l) (read_in (p_log (l_port l)) ++ w) (l_file l ++ w)).
    { intros L. rewrite <- (app_nil_r (l_in l)). apply mixed_app; [auto|apply mixed_r]. }
    destruct OP as (k0 & OP1 & OP2).
    destruct (r_send r) as [k|e]; constructor; unfold log_of; cbn [finished note l_port l_in l_out l_file l_end];
      rewrite ?X'; auto; try discriminate.
    - intros H. apply andb_true_iff in H as (H & K). apply Nat.leb_le in K. rewrite Y', (O H), firstn_all2; [reflexivity|].
      rewrite R4. change (Z.to_nat 1024) with 1024%nat. lia.
    - exists (k0 + length w)%nat. rewrite Y', !app_length, firstn_length. lia.
    - intros _ L. rewrite L, Y'. auto.
    - rewrite andb_false_r. discriminate.
    - exists k0. rewrite Y', app_length. lia.
  Qed.

  Definition fulls (rs : list round) : bool :=
    forallb (fun r => match r_send r with Took k => (1024 <=? k)%nat | Refuses _ => false end) rs.

  Lemma good_weaken l f f' : good l f -> (f' = true -> f = true) -> good l f'.
  Proof. intros [] H. constructor; auto. Qed.

  Lemma in_outward l r : l_in (outward (Some i) target dev lock logging l r) = l_in l.
  Proof.
    unfold outward. destruct (read _ _ _ _ _ _ _ _ _ _) as [p [[|x b]|e|]]; try reflexivity.
    destruct (r_send r); reflexivity.
  Qed.
  Lemma in_inward l r : l_in (inward (Some i) target dev lock logging l r) = l_in l ++ match r_recv r with Got b => b | _ => [] end.
  Proof.
    unfold inward. destruct (r_recv r) as [[|x b]| |]; try (now rewrite app_nil_r).
    destruct (write _ _ _ _ _ _ _) as [p [n|e|]]; reflexivity.
  Qed.
  Lemma ended_stays l rs : l_end l <> None -> fold_left step rs l = l.
  Proof.
    intros E. induction rs as [|r rs IH]; [reflexivity|]. cbn [fold_left]. unfold round_step at 2.
    destruct (l_end l); [exact IH|congruence].
  Qed.

  Lemma run_snoc rs r : run (rs ++ [r]) = step (run rs) r.
  Proof. unfold run_link. rewrite fold_left_app. reflexivity. Qed.

  Lemma run_good rs : good (run rs) (fulls rs) /\ (l_end (run rs) = None -> l_in (run rs) = from_socket rs) /\
    (exists k, l_in (run rs) = firstn k (from_socket rs)).
  Proof.
    induction rs as [|r rs (G & A & k & K)] using rev_ind.
    - split; [|split]; [|reflexivity|exists O; reflexivity].
      constructor; cbn; auto; [now exists O|exists O; lia|constructor].
    - rewrite run_snoc. unfold fulls. rewrite forallb_app. fold (fulls rs). cbn [forallb]. rewrite andb_true_r.
      unfold from_socket. rewrite flat_map_app. fold (from_socket rs). cbn [flat_map]. rewrite app_nil_r.
      assert (PRE : exists j, firstn k (from_socket rs) = firstn j (from_socket rs ++ match r_recv r with Got b => b | _ => [] end)).
      { exists (Nat.min k (length (from_socket rs))). rewrite firstn_app.
        replace (_ - _)%nat with O by lia. rewrite firstn_O, app_nil_r.
        rewrite <- (firstn_all (from_socket rs)) at 1. rewrite firstn_firstn. reflexivity. }
      unfold round_step. destruct (l_end (run rs)) eqn:E.
      + split; [|split]; [|congruence|rewrite K; exact PRE].
        apply (good_weaken _ _ _ G). intros H. apply andb_true_iff in H. apply H.
      + specialize (A eq_refl). pose proof (good_inward _ r _ G E) as G1. pose proof (in_inward (run rs) r) as I1.
        rewrite A in I1.
        assert (I2 : exists j, l_in (inward (Some i) target dev lock logging (run rs) r) =
          firstn j (from_socket rs ++ match r_recv r with Got b => b | _ => [] end)).
        { rewrite I1. eexists. symmetry. apply firstn_all. }
        destruct (l_end (inward _ _ _ _ _ _ _)) eqn:E1.
        * split; [|split]; [|congruence|exact I2].
          apply (good_weaken _ _ _ G1). intros H. apply andb_true_iff in H. apply H.
        * split; [apply good_outward; assumption|]. rewrite in_outward. auto.
  Qed.

  Lemma fulls_all rs : Forall takes_all rs -> fulls rs = true.
  Proof.
    intros F. apply forallb_forall. intros r I. rewrite Forall_forall in F. destruct (F r I) as (k & -> & L).
    apply Nat.leb_le. exact L.
  Qed.

  (** From the socket to the device. *)
  Lemma link_inward rs : l_end (run rs) = None -> payload (sent_in (p_log (l_port (run rs)))) = from_socket rs.
  Proof. intros E. destruct (run_good rs) as (G & A & _). rewrite <- (A E). exact (g_sent_alive _ _ G E). Qed.
  Lemma link_prefix rs : exists k, payload (sent_in (p_log (l_port (run rs)))) = firstn k (from_socket rs).
  Proof.
    destruct (run_good rs) as (G & _ & k & K). destruct (g_sent _ _ G) as (j & J). unfold log_of in J. rewrite J, K.
    rewrite firstn_firstn. eauto.
  Qed.
  Lemma link_told rs : Forall (for_device (Some i) target dev lock baud) (sent_in (p_log (l_port (run rs)))).
  Proof. destruct (run_good rs) as (G & _). exact (g_device _ _ G). Qed.
  (** From the device to the socket. *)
  Lemma link_outward rs : Forall takes_all rs ->
    l_out (run rs) ++ p_buf (l_port (run rs)) = recv (p_log (l_port (run rs))).
  Proof.
    intros F. destruct (run_good rs) as (G & _). rewrite (g_out _ _ G (fulls_all rs F)). exact (g_read _ _ G).
  Qed.
  Lemma one_device_bytes log : one_device i target dev log -> recv log = device_bytes (Some i) target dev log.
  Proof.
    intros H. symmetry. apply device_received. apply Forall_forall. intros e I. destruct e as [m| | |]; auto.
    intros K1 K2. apply (H m I); [exact K1|]. congruence.
  Qed.
  Lemma link_logged rs : l_end (run rs) = None -> logging = true ->
    mixed (from_socket rs) (read_in (p_log (l_port (run rs)))) (l_file (run rs)).
  Proof. intros E L. destruct (run_good rs) as (G & A & _). rewrite <- (A E). exact (g_file _ _ G E L). Qed.

  (** A turn that ends takes what has come, up to 1024 bytes. *)
  Lemma link_drains rs r : takes_all r -> l_end (run (rs ++ [r])) = None ->
    exists b, l_out (run (rs ++ [r])) = l_out (run rs) ++ b /\ (length b <= 1024)%nat /\
      (p_buf (l_port (run (rs ++ [r]))) = [] \/ length b = 1024%nat).
  Proof.
    intros (k & K & K1) H. rewrite run_snoc in *. unfold round_step in *. destruct (l_end (run rs)) eqn:E; [congruence|].
    set (l := inward (Some i) target dev lock logging (run rs) r) in *.
    assert (OL : l_out l = l_out (run rs)).
    { unfold l, inward. destruct (r_recv r) as [[|x b]| |]; try reflexivity.
      destruct (write _ _ _ _ _ _ _) as [p [n|e|]]; reflexivity. }
    destruct (l_end l) eqn:E1; [congruence|]. unfold outward in *. rewrite K in *.
    destruct (read _ _ _ _ _ _ _ _ _ _) as [p res] eqn:E2.
    apply read_moved in E2 as (d & p1 & M & P & R).
    destruct res as [bs|e|]; [|discriminate|discriminate]. destruct R as (R1 & R2 & R3 & R4). specialize (R4 ltac:(lia)).
    change (Z.to_nat 1024) with 1024%nat in R4.
    assert (PB : p_buf p = [] \/ length bs = 1024%nat).
    { destruct (p_buf p) eqn:Q; [auto|right]. rewrite R3, app_length in R4. cbn [length] in R4. lia. }
    destruct bs as [|x b]; cbn [note l_port l_out].
    - exists []. rewrite app_nil_r. split; [exact OL|]. split; [cbn; lia|exact PB].
    - exists (x :: b). rewrite OL, firstn_all2 by lia. split; [reflexivity|]. split; [lia|exact PB].
  Qed.

  (** The program goes on, whatever the socket gives, while the node raises
      nothing and there is room in its queue. *)
  Lemma link_lives rs :
    Forall (fun r => takes_all r /\ spin_fine (r_spin r) /\ Forall no_failure (r_write r) /\ Forall no_failure (r_alive r) /\
      existsb goes_out (r_alive r) = true /\
      (length (match r_recv r with Got b => b | _ => [] end) <= 120 * length (filter goes_out (r_write r)))%nat) rs ->
    l_end (run rs) = None.
  Proof.
    induction rs as [|r rs IH] using rev_ind; intros F; [reflexivity|]. apply Forall_app in F as (F & Fr).
    apply Forall_cons_iff in Fr as (((k & K & _) & SF & NW & NA & GO & LE) & _). specialize (IH F). rewrite run_snoc. unfold round_step. rewrite IH.
    assert (W : l_end (inward (Some i) target dev lock logging (run rs) r) = None).
    { unfold inward. destruct (r_recv r) as [[|x b]| |]; try exact IH.
      pose proof (write_completes (Some i) target dev lock (l_port (run rs)) (x :: b) (r_write r) NW LE) as C.
      destruct (write _ _ _ _ _ _ _) as [p res]. cbn [snd] in C. rewrite C. exact IH. }
    rewrite W. unfold outward. 
    assert (RE : exists bs, snd (read (Some i) target dev lock (l_port (inward (Some i) target dev lock logging (run rs) r)) 1024 (r_arrive r)
      (r_spin r) (r_now r) (r_alive r)) = Returns bs).
    { set (p := l_port _). destruct (500 <? r_now r - p_last p)%Z eqn:Q.
      - destruct (read_alive (Some i) target dev lock p 1024 (r_arrive r) (r_spin r) (r_now r) (r_alive r) SF ltac:(lia) NA GO)
          as (bs & d & RB & _). eauto.
      - unfold read, spin. replace (match r_spin r with Fails TransferError => Done | _ => r_spin r end) with Done
          by (destruct SF as [->| ->]; reflexivity).
        rewrite handles_fields, Q. destruct (finish_eq (fold_left (handle (Some i) target) (r_arrive r) p) 1024) as (bs & -> & _). cbn [snd]. eauto. }
    destruct (read _ _ _ _ _ _ _ _ _ _) as [p res]. destruct RE as (bs & RE). cbn [snd] in RE. subst res.
    destruct bs; [exact W|]. rewrite K. exact W.
  Qed.
End Facts.

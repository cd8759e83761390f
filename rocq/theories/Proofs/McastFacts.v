(** Proofs about the I/O process of the multicast driver (C125). *)
From Verif.Base Require Import Prelude Pack.
From Verif.Model Require Import Crc CanFrame Packets McastIo.
From Verif.Spec Require Import CrcSpec PacketSpec McastSpec.
From Verif.Proofs Require Import PacketFacts.

Section Facts.
  Variables (tx_size rx_size : nat) (ports : nat -> N).
  Notation step := (step tx_size rx_size ports).
  Notation run := (run tx_size rx_size ports).

  Lemma accepted_app a b : accepted (a ++ b) = accepted a ++ accepted b.
  Proof. apply flat_map_app. Qed.
  Lemma tried_app a b : tried (a ++ b) = tried a ++ tried b.
  Proof. apply flat_map_app. Qed.
  Lemma sent_app a b : sent (a ++ b) = sent a ++ sent b.
  Proof. apply flat_map_app. Qed.
  Lemma heard_app a b : heard (a ++ b) = heard a ++ heard b.
  Proof. apply flat_map_app. Qed.
  Lemma delivered_app a b : delivered (a ++ b) = delivered a ++ delivered b.
  Proof. apply flat_map_app. Qed.

  Lemma run_snoc acts a s : run s (acts ++ [a]) = step (run s acts) a.
  Proof. unfold McastIo.run. rewrite fold_left_app. reflexivity. Qed.
  Lemma run_app a b s : run s (a ++ b) = run (run s a) b.
  Proof. unfold McastIo.run. apply fold_left_app. Qed.

  (** ** Sending *)

  Definition packed (f : cframe) (t : list N * bool) : Prop := mcast_packet f = Ok (fst t).

  Definition inv (s : state) : Prop := exists handled lost,
    accepted (mc_log s) = handled ++ lost ++ in_hand s ++ mc_tx s /\
    Forall2 packed handled (tried (mc_log s)) /\
    (length lost <= 1)%nat /\ (mc_place s <> AtEnd -> lost = []) /\
    (forall f p, mc_place s = AtSend f p -> mcast_packet f = Ok p) /\
    (forall f, In f lost -> exists x, mcast_packet f = Err x).

  Ltac simpl_state := unfold go, see, broken in *; cbn [mc_tx mc_rx mc_place mc_need mc_conns mc_my mc_log go see broken] in *.

  Lemma inv_step s a : inv s -> inv (step s a).
  Proof.
    intros (handled & lost & A & T & L & E & P & X).
    destruct s as [tx rx pl nd cn my lg]. unfold in_hand in A. simpl_state.
    destruct a as [f| |r]; cbn [McastIo.step].
    - unfold send_frame. simpl_state.
      destruct (length tx <? tx_size)%nat; simpl_state; exists handled, lost; unfold in_hand; simpl_state;
        rewrite accepted_app, tried_app; cbn [accepted tried flat_map]; rewrite ?app_nil_r.
      + split; [rewrite A, <- !app_assoc; reflexivity|]. auto 10.
      + auto 10.
    - unfold poll. simpl_state. destruct rx as [|g rx]; simpl_state; exists handled, lost; unfold in_hand; simpl_state;
        rewrite ?accepted_app, ?tried_app; cbn [accepted tried flat_map]; rewrite ?app_nil_r; auto 10.
    - unfold process_step. simpl_state. destruct pl as [| | |f p| | |].
      + destruct nd; simpl_state; exists handled, lost; unfold in_hand; simpl_state; (split; [exact A|]);
          repeat split; auto; try (intros; discriminate); intros; apply E; discriminate.
      + destruct r; simpl_state; exists handled, lost; unfold in_hand; simpl_state; (split; [exact A|]);
          repeat split; auto; try (intros; discriminate); intros; try contradiction; try (apply E; discriminate).
      + pose proof (E ltac:(discriminate)) as E0. subst lost.
        destruct tx as [|f q]; simpl_state.
        * exists handled, []. unfold in_hand; simpl_state. repeat split; auto; intros; discriminate.
        * destruct (mcast_packet f) as [p|x] eqn:EP; simpl_state.
          -- exists handled, []. unfold in_hand; simpl_state. repeat split; auto.
             intros f' p' H. injection H as <- <-. exact EP.
          -- exists handled, [f]. unfold in_hand; simpl_state. repeat split; auto; try (intros; discriminate).
             ++ intros H. contradiction.
             ++ intros f' [<-|[]]. exists x. exact EP.
      + pose proof (E ltac:(discriminate)) as E0. subst lost. pose proof (P f p eq_refl) as P0.
        cbn [app] in A.
        assert (K : forall b, exists handled' lost', accepted lg = handled' ++ lost' ++ [] ++ tx /\
                  Forall2 packed handled' (tried lg ++ [(p, b)]) /\ (length lost' <= 1)%nat /\
                  (AtQueue <> AtEnd -> lost' = []) /\
                  (forall f0 p0, AtQueue = AtSend f0 p0 -> mcast_packet f0 = Ok p0) /\
                  (forall f0, In f0 lost' -> exists x, mcast_packet f0 = Err x)).
        { intros b. exists (handled ++ [f]), [].
          split; [rewrite A, <- app_assoc; reflexivity|].
          split; [apply Forall2_app; [exact T|]; constructor; [exact P0|constructor]|].
          split; [cbn; lia|]. split; [reflexivity|]. split; [intros; discriminate|]. intros f0 []. }
        destruct r; unfold inv, in_hand; simpl_state; rewrite accepted_app, tried_app;
          cbn [accepted tried flat_map]; rewrite app_nil_r; apply K.
      + destruct r; simpl_state; exists handled, lost; unfold in_hand; simpl_state; (split; [exact A|]);
          repeat split; auto; try (intros; discriminate); intros; apply E; discriminate.
      + pose proof (E ltac:(discriminate)) as E0. subst lost.
        assert (K : forall l' pl', accepted l' = accepted lg -> tried l' = tried lg ->
                  (forall f p, pl' <> AtSend f p) -> forall rx' nd' cn' my', inv (State tx rx' pl' nd' cn' my' l')).
        { intros l' pl' A' T' N rx' nd' cn' my'. exists handled, []. unfold in_hand; simpl_state.
          rewrite A', T', A.
          split; [destruct pl'; auto; exfalso; eapply N; reflexivity|]. split; [exact T|]. split; [exact L|].
          split; [reflexivity|]. split; [intros f p H; exfalso; eapply N; exact H|exact X]. }
        destruct r as [| | |now address port b named]; simpl_state; try (apply K; auto; discriminate).
        unfold datagram. simpl_state.
        set (my' := match my with Some p => Some p | None => _ end). clearbody my'.
        destruct (mcast_receive now my' address port b) as [g|]; simpl_state.
        * destruct (length rx <? rx_size)%nat; simpl_state; apply K; try discriminate;
            rewrite ?accepted_app, ?tried_app; cbn [accepted tried flat_map]; apply app_nil_r.
        * apply K; try discriminate;
            rewrite ?accepted_app, ?tried_app; cbn [accepted tried flat_map]; apply app_nil_r.
      + exists handled, lost. unfold in_hand; simpl_state. auto 10.
  Qed.

  Lemma inv_start : inv start.
  Proof.
    exists [], []. cbn. repeat split; auto; try (intros; discriminate). intros f [].
  Qed.
  Lemma inv_run acts : inv (run start acts).
  Proof.
    induction acts as [|a acts IH] using rev_ind; [apply inv_start|].
    rewrite run_snoc. apply inv_step. exact IH.
  Qed.

  Lemma in_order acts : let s := run start acts in
    exists handled lost,
      accepted (mc_log s) = handled ++ lost ++ in_hand s ++ mc_tx s /\
      Forall2 (fun f t => mcast_packet f = Ok (fst t)) handled (tried (mc_log s)) /\
      (length lost <= 1)%nat /\ (~ ended s -> lost = []).
  Proof.
    cbv zeta. destruct (inv_run acts) as (handled & lost & A & T & L & E & _).
    exists handled, lost. auto.
  Qed.

  (** Nothing of what was tried failed. *)
  Lemma tried_calm acts : calm acts ->
    tried (mc_log (run start acts)) = map (fun p => (p, true)) (sent (mc_log (run start acts))).
  Proof.
    induction acts as [|a acts IH] using rev_ind; intros C; [reflexivity|].
    rewrite run_snoc. assert (C' : calm acts) by (intros I; apply C; apply in_or_app; auto).
    assert (NR : a <> AProcess Raises) by (intros ->; apply C; apply in_or_app; right; left; reflexivity).
    specialize (IH C'). destruct (run start acts) as [tx rx pl nd cn my lg]. simpl_state.
    assert (K : forall o, (forall p, o <> Sent p) -> (forall p, o <> Failed p) ->
                tried (lg ++ [o]) = map (fun p => (p, true)) (sent (lg ++ [o]))).
    { intros o N1 N2. rewrite tried_app, sent_app, map_app, IH. f_equal.
      destruct o as [| |p|p| |]; try reflexivity. exfalso. apply (N2 p). reflexivity. }
    destruct a as [f| |r]; cbn [McastIo.step].
    - unfold send_frame. simpl_state. destruct (_ <? _)%nat; simpl_state; apply K; discriminate.
    - unfold poll. simpl_state. destruct rx; simpl_state; [exact IH|apply K; discriminate].
    - unfold process_step. simpl_state. destruct pl as [| | |f p| | |]; simpl_state; auto.
      + destruct nd; exact IH.
      + destruct r; exact IH.
      + destruct tx; exact IH.
      + destruct r; simpl_state; try (exfalso; apply NR; reflexivity);
          rewrite tried_app, sent_app, map_app, IH; reflexivity.
      + destruct r; exact IH.
      + destruct r as [| | |now address port b named]; simpl_state; try exact IH.
        unfold datagram. simpl_state.
        destruct (mcast_receive _ _ _ _ _); simpl_state; [destruct (_ <? _)%nat; simpl_state|]; apply K; discriminate.
  Qed.

  (** ** Staying alive *)

  Lemma accepted_handed acts f : In f (accepted (mc_log (run start acts))) -> In f (handed acts).
  Proof.
    induction acts as [|a acts IH] using rev_ind; [intros []|]. rewrite run_snoc.
    unfold handed. rewrite flat_map_app. fold (handed acts). intros H. apply in_or_app.
    destruct (run start acts) as [tx rx pl nd cn my lg]. simpl_state.
    assert (K : forall o, (forall g, o = Accepted g -> a = ASend g) -> In f (accepted (lg ++ [o])) ->
                In f (handed acts) \/ In f (flat_map (fun a => match a with ASend f => [f] | _ => [] end) [a])).
    { intros o N I. rewrite accepted_app in I. apply in_app_or in I as [I|I]; [auto|].
      destruct o; try (destruct I; fail). destruct I as [<-|[]]. rewrite (N f0 eq_refl). right. left. reflexivity. }
    destruct a as [g| |r]; cbn [McastIo.step] in H.
    - unfold send_frame in H. simpl_state. destruct (_ <? _)%nat in H; simpl_state; revert H; apply K.
      + intros g' E. injection E as <-. reflexivity.
      + discriminate.
    - unfold poll in H. simpl_state. destruct rx; simpl_state; [auto|]. revert H. apply K. discriminate.
    - unfold process_step in H. simpl_state. destruct pl as [| | |f' p| | |]; simpl_state; auto.
      + destruct nd; auto.
      + destruct r; auto.
      + destruct tx; auto.
      + destruct r; simpl_state; revert H; apply K; discriminate.
      + destruct r; auto.
      + destruct r as [| | |now address port b named]; simpl_state; auto.
        unfold datagram in H. simpl_state.
        destruct (mcast_receive _ _ _ _ _) in H; simpl_state; [destruct (_ <? _)%nat in H; simpl_state|];
          revert H; apply K; discriminate.
  Qed.

  Lemma keeps_up_prefix acts a : keeps_up tx_size rx_size ports (acts ++ [a]) -> keeps_up tx_size rx_size ports acts.
  Proof. intros K pre post E. apply (K pre (post ++ [a])). rewrite E, app_assoc. reflexivity. Qed.

  Lemma alive acts : calm acts -> keeps_up tx_size rx_size ports acts -> Forall on_bus (handed acts) ->
    ~ ended (run start acts).
  Proof.
    induction acts as [|a acts IH] using rev_ind; intros C K B; [discriminate|].
    pose proof (accepted_handed acts) as IA. pose proof (inv_run acts) as (handled & lost & A & _).
    assert (C' : calm acts) by (intros I; apply C; apply in_or_app; auto).
    assert (NR : a <> AProcess Raises) by (intros ->; apply C; apply in_or_app; right; left; reflexivity).
    assert (B' : Forall on_bus (handed acts)).
    { unfold handed in B. rewrite flat_map_app in B. apply Forall_app in B. tauto. }
    specialize (IH C' (keeps_up_prefix _ _ K) B'). pose proof (K acts [a] eq_refl) as R.
    rewrite run_snoc. destruct (run start acts) as [tx rx pl nd cn my lg]. unfold ended in *. simpl_state.
    destruct a as [g| |r]; cbn [McastIo.step].
    - unfold send_frame. simpl_state. destruct (_ <? _)%nat; simpl_state; exact IH.
    - unfold poll. simpl_state. destruct rx; simpl_state; exact IH.
    - unfold process_step. simpl_state. destruct pl as [| | |f' p| | |]; simpl_state; try discriminate.
      + destruct nd; discriminate.
      + destruct r; simpl_state; try discriminate. exfalso. apply NR. reflexivity.
      + destruct tx as [|f q]; simpl_state; [discriminate|].
        assert (BF : on_bus f).
        { rewrite Forall_forall in B'. apply B', IA. rewrite A. apply in_or_app. right. apply in_or_app. right.
          apply in_or_app. right. left. reflexivity. }
        destruct (mcast_roundtrip f 0 BF) as (p & -> & _). discriminate.
      + destruct r; discriminate.
      + destruct r; discriminate.
      + destruct r as [| | |now address port b named]; simpl_state; try discriminate.
        unfold datagram. simpl_state. destruct (mcast_receive _ _ _ _ _); simpl_state; [|discriminate].
        destruct (Nat.ltb_spec (length rx) rx_size); simpl_state; [discriminate|lia].
      + exfalso. apply IH. reflexivity.
  Qed.

  Lemma all_sent acts : calm acts -> keeps_up tx_size rx_size ports acts -> Forall on_bus (handed acts) ->
    let s := run start acts in
    ~ ended s /\ exists out, accepted (mc_log s) = out ++ in_hand s ++ mc_tx s /\
      Forall2 (fun f p => mcast_packet f = Ok p) out (sent (mc_log s)).
  Proof.
    intros C K B s. assert (AL : ~ ended s) by (apply alive; assumption). split; [exact AL|].
    destruct (inv_run acts) as (handled & lost & A & T & _ & E & _). fold s in A, T, E.
    rewrite (E AL) in A. exists handled. split; [exact A|].
    unfold s in T. rewrite (tried_calm acts C) in T. fold s in T. clear - T. revert handled T. generalize (sent (mc_log s)).
    intros l. induction l as [|p l IHl]; intros handled T; inversion T; subst; constructor; auto.
  Qed.

  (** ** Progress *)

  Definition distance_to_queue (s : state) : nat :=
    match mc_place s with
    | AtTop => if mc_need s then 3 else 1
    | AtConnect => if mc_need s then 4 else 2
    | AtQueue => 0
    | AtSend _ _ => 1
    | AtSelect => (if mc_need s then 3 else 1) + 2
    | AtReceive => (if mc_need s then 3 else 1) + 1
    | AtEnd => 0
    end.

  Definition good (s : state) : Prop := Forall on_bus (mc_tx s) /\ mc_place s <> AtEnd.

  Lemma good_step s : good s -> good (step s (AProcess Fine)).
  Proof.
    intros (G & NE). destruct s as [tx rx pl nd cn my lg]. unfold good in *. simpl_state. cbn [McastIo.step].
    unfold process_step. simpl_state. destruct pl; simpl_state; try (split; [assumption|discriminate]).
    - destruct nd; simpl_state; (split; [assumption|discriminate]).
    - destruct tx as [|f q]; simpl_state; [split; [assumption|discriminate]|].
      apply Forall_cons_iff in G as (BF & G). destruct (mcast_roundtrip f 0 BF) as (p & -> & _).
      split; [assumption|discriminate].
    - contradiction.
  Qed.

  Definition work (s : state) : nat := 2 * length (mc_tx s) + length (in_hand s).

  Lemma idle_stays s : good s -> work s = 0%nat -> work (step s (AProcess Fine)) = 0%nat.
  Proof.
    intros (G & NE) W. destruct s as [tx rx pl nd cn my lg]. unfold work, in_hand in *. simpl_state. cbn [McastIo.step].
    unfold process_step. simpl_state. destruct pl; simpl_state; try exact W; try discriminate; try lia.
    - destruct nd; simpl_state; exact W.
    - destruct tx; simpl_state; [exact W|]. cbn [length] in W. lia.
    - cbn [length] in W. lia.
  Qed.

  (** The steps until everything is sent. *)
  Definition due (s : state) : nat :=
    match work s with O => 0 | w => 2 * length (mc_tx s) + distance_to_queue s end.

  Lemma due_step s : good s -> (due (step s (AProcess Fine)) <= due s - 1)%nat.
  Proof.
    intros G. pose proof (idle_stays s G) as I. unfold due at 2. destruct (work s) as [|w] eqn:W.
    { unfold due. rewrite I by reflexivity. lia. }
    clear I. destruct G as (G & NE).
    assert (D : forall s', (due s' <= 2 * length (mc_tx s') + distance_to_queue s')%nat)
      by (intros s'; unfold due; destruct (work s'); lia).
    destruct s as [tx rx pl nd cn my lg]. simpl_state. cbn [McastIo.step].
    unfold process_step. simpl_state. unfold work, in_hand in W. unfold distance_to_queue at 1.
    destruct pl as [| | |f p| | |]; simpl_state.
    - destruct nd; (etransitivity; [apply D|]); unfold distance_to_queue; simpl_state; lia.
    - etransitivity; [apply D|]. unfold distance_to_queue; simpl_state. destruct nd; lia.
    - destruct tx as [|f q]; simpl_state; [cbn in W; lia|].
      apply Forall_cons_iff in G as (BF & G). destruct (mcast_roundtrip f 0 BF) as (p & -> & _).
      etransitivity; [apply D|]. unfold distance_to_queue; simpl_state. cbn [length]. lia.
    - etransitivity; [apply D|]. unfold distance_to_queue; simpl_state. lia.
    - etransitivity; [apply D|]. unfold distance_to_queue; simpl_state. destruct nd; lia.
    - etransitivity; [apply D|]. unfold distance_to_queue; simpl_state. destruct nd; lia.
    - contradiction.
  Qed.

  Lemma drains n : forall s, good s -> (due s <= n)%nat ->
    good (run s (repeat (AProcess Fine) n)) /\ due (run s (repeat (AProcess Fine) n)) = 0%nat.
  Proof.
    induction n as [|n IH]; intros s G D.
    - cbn. split; [exact G|lia].
    - cbn [repeat]. change (run s (AProcess Fine :: repeat (AProcess Fine) n)) with (run (step s (AProcess Fine)) (repeat (AProcess Fine) n)).
      apply IH; [apply good_step; exact G|]. pose proof (due_step s G). lia.
  Qed.

  Lemma progress acts n : Forall on_bus (handed acts) -> let s := run start acts in ~ ended s ->
    (2 * length (mc_tx s) + 5 <= n)%nat -> idle (run s (repeat (AProcess Fine) n)).
  Proof.
    intros B s NE L.
    assert (G : good s).
    { split; [|exact NE]. pose proof (accepted_handed acts) as IA. fold s in IA.
      destruct (inv_run acts) as (handled & lost & A & _). fold s in A.
      rewrite Forall_forall in *. intros f I. apply B, IA. rewrite A.
      apply in_or_app. right. apply in_or_app. right. apply in_or_app. right. exact I. }
    destruct (drains n s G) as (G' & D).
    { unfold due. destruct (work s); [lia|]. unfold distance_to_queue.
      destruct (mc_place s); try destruct (mc_need s) eqn:EN; try lia. }
    generalize dependent (run s (repeat (AProcess Fine) n)). intros t G' D.
    split; [exact (proj2 G')|].
    unfold due in D. destruct (work t) as [|w] eqn:W.
    - unfold work in W. split; [destruct (mc_tx t)|destruct (in_hand t)]; try reflexivity; cbn [length] in W; lia.
    - exfalso. unfold work in W. destruct (mc_tx t) eqn:TX; [|cbn [length] in D; lia].
      unfold in_hand, distance_to_queue in *. destruct (mc_place t); try destruct (mc_need t); cbn [length] in *; lia.
  Qed.

  (** ** New connections *)

  Lemma good_run acts : Forall on_bus (handed acts) -> ~ ended (run start acts) -> good (run start acts).
  Proof.
    intros B NE. split; [|exact NE]. pose proof (accepted_handed acts) as IA.
    destruct (inv_run acts) as (handled & lost & A & _).
    rewrite Forall_forall in *. intros f I. apply B, IA. rewrite A.
    apply in_or_app. right. apply in_or_app. right. apply in_or_app. right. exact I.
  Qed.

  (** The connections made, being made and to be made. *)
  Definition foreseen (s : state) : nat :=
    mc_conns s + (if mc_need s then 1 else 0) + match mc_place s with AtConnect => 1 | _ => 0 end.
  Definition distance_to_connection (s : state) : nat :=
    match mc_place s with
    | AtConnect => 1 + (if mc_need s then 2 else 0)
    | AtTop => if mc_need s then 2 else 0
    | AtQueue => if mc_need s then 2 * length (mc_tx s) + 5 else 0
    | AtSend _ _ => if mc_need s then 2 * length (mc_tx s) + 6 else 0
    | AtSelect => if mc_need s then 4 else 0
    | AtReceive => if mc_need s then 3 else 0
    | AtEnd => 0
    end.

  Lemma connection_step s : good s -> foreseen (step s (AProcess Fine)) = foreseen s /\
    (distance_to_connection (step s (AProcess Fine)) <= distance_to_connection s - 1)%nat.
  Proof.
    intros (G & NE). destruct s as [tx rx pl nd cn my lg]. simpl_state. cbn [McastIo.step].
    unfold process_step, foreseen, distance_to_connection. simpl_state.
    destruct pl as [| | |f p| | |]; simpl_state.
    - destruct nd; simpl_state; cbn [length]; lia.
    - destruct nd; lia.
    - destruct tx as [|f q]; simpl_state; [destruct nd; cbn [length]; lia|].
      apply Forall_cons_iff in G as (BF & G). destruct (mcast_roundtrip f 0 BF) as (p & -> & _).
      destruct nd; cbn [length]; lia.
    - destruct nd; lia.
    - destruct nd; lia.
    - destruct nd; lia.
    - contradiction.
  Qed.
  Lemma connection_run n : forall s, good s -> (distance_to_connection s <= n)%nat ->
    mc_conns (run s (repeat (AProcess Fine) n)) = foreseen s.
  Proof.
    induction n as [|n IH]; intros s G D.
    - cbn. destruct G as (_ & NE). unfold distance_to_connection in D. unfold foreseen.
      destruct (mc_place s), (mc_need s); try lia. contradiction.
    - cbn [repeat]. change (run s (AProcess Fine :: repeat (AProcess Fine) n)) with (run (step s (AProcess Fine)) (repeat (AProcess Fine) n)).
      destruct (connection_step s G) as (F & D'). rewrite IH; [exact F|apply good_step; exact G|lia].
  Qed.

  Lemma reconnects acts n : Forall on_bus (handed acts) -> let s := run start acts in
    calling s -> (2 * length (mc_tx s) + 5 <= n)%nat ->
    mc_conns (run s (AProcess Raises :: repeat (AProcess Fine) n)) = S (mc_conns s).
  Proof.
    intros B s C L. assert (NE : ~ ended s) by (intros E; unfold calling in C; rewrite E in C; exact C).
    pose proof (good_run acts B NE) as G. fold s in G. clearbody s.
    change (run s (AProcess Raises :: repeat (AProcess Fine) n)) with (run (step s (AProcess Raises)) (repeat (AProcess Fine) n)).
    assert (X : good (step s (AProcess Raises)) /\ foreseen (step s (AProcess Raises)) = S (mc_conns s) /\
                (distance_to_connection (step s (AProcess Raises)) <= n)%nat).
    { destruct G as (G & _). destruct s as [tx rx pl nd cn my lg]. unfold calling in C. simpl_state. cbn [McastIo.step].
      unfold process_step, foreseen, distance_to_connection, good. simpl_state.
      destruct pl; try contradiction; simpl_state; (split; [split; [assumption|discriminate]|]); lia. }
    destruct X as (G' & F & D). rewrite connection_run by assumption. exact F.
  Qed.

  Lemma one_connection acts : calm acts -> (mc_conns (run start acts) <= 1)%nat.
  Proof.
    intros C. enough (foreseen (run start acts) <= 1)%nat by (unfold foreseen in *; lia).
    induction acts as [|a acts IH] using rev_ind; [cbn; lia|].
    rewrite run_snoc. assert (C' : calm acts) by (intros I; apply C; apply in_or_app; auto).
    assert (A : a <> AProcess Raises) by (intros ->; apply C; apply in_or_app; right; left; reflexivity).
    specialize (IH C'). destruct (run start acts) as [tx rx pl nd cn my lg]. unfold foreseen in *. simpl_state.
    destruct a as [f| |r]; cbn [McastIo.step].
    - unfold send_frame. simpl_state. destruct (length tx <? tx_size)%nat; simpl_state; exact IH.
    - unfold poll. simpl_state. destruct rx; simpl_state; exact IH.
    - unfold process_step. simpl_state. destruct pl as [| | |f p| | |]; simpl_state.
      + destruct nd; simpl_state; lia.
      + destruct r; simpl_state; try lia; try contradiction.
      + destruct tx as [|f q]; simpl_state; [exact IH|]. destruct (mcast_packet f); simpl_state; exact IH.
      + destruct r; simpl_state; try exact IH; contradiction.
      + destruct r; simpl_state; try exact IH; contradiction.
      + destruct r as [| | |now ad po b nm]; simpl_state; try exact IH; try contradiction.
        unfold datagram. simpl_state. destruct (mcast_receive _ _ _ _ _); simpl_state; [|exact IH].
        destruct (length rx <? rx_size)%nat; simpl_state; exact IH.
      + exact IH.
  Qed.

  (** ** Reception *)

  Definition known (s : state) : Prop := forall p, mc_my s = Some p -> exists i, (i < mc_conns s)%nat /\ p = ports i.
  Definition connected (s : state) : Prop :=
    match mc_place s with AtTop => mc_need s = true \/ (1 <= mc_conns s)%nat | AtConnect | AtEnd => True | _ => (1 <= mc_conns s)%nat end.

  Lemma known_step s a : known s -> known (step s a).
  Proof.
    intros K. destruct s as [tx rx pl nd cn my lg]. unfold known in *. simpl_state.
    destruct a as [f| |r]; cbn [McastIo.step].
    - unfold send_frame. simpl_state. destruct (_ <? _)%nat; simpl_state; exact K.
    - unfold poll. simpl_state. destruct rx; simpl_state; exact K.
    - unfold process_step. simpl_state. destruct pl as [| | |f' p'| | |]; simpl_state; try exact K.
      + destruct nd; simpl_state; exact K.
      + destruct r; simpl_state; try exact K; intros p H; destruct (K p H) as (i & L & E); exists i; split; auto; lia.
      + destruct tx; simpl_state; exact K.
      + destruct r; simpl_state; exact K.
      + destruct r; simpl_state; exact K.
      + destruct r as [| | |now address port b named]; simpl_state; try exact K.
        set (my' := match my with Some p => Some p | None => if named then match cn with O => None | S n => Some (ports n) end else None end).
        assert (K' : forall p, my' = Some p -> exists i, (i < cn)%nat /\ p = ports i).
        { intros p. subst my'. destruct my as [q|]; [apply K|]. destruct named; [|discriminate].
          destruct cn as [|n]; [discriminate|]. intros H. injection H as <-. exists n. split; [lia|reflexivity]. }
        unfold datagram. simpl_state. fold my'.
        destruct (mcast_receive _ _ _ _ _); simpl_state; [destruct (_ <? _)%nat; simpl_state|]; exact K'.
  Qed.

  Lemma connected_step s a : connected s -> connected (step s a).
  Proof.
    intros K. destruct s as [tx rx pl nd cn my lg]. unfold connected in *. simpl_state.
    destruct a as [f| |r]; cbn [McastIo.step].
    - unfold send_frame. simpl_state. destruct (_ <? _)%nat; simpl_state; exact K.
    - unfold poll. simpl_state. destruct rx; simpl_state; exact K.
    - unfold process_step. simpl_state. destruct pl as [| | |f' p'| | |]; simpl_state; try exact K.
      + destruct nd; simpl_state; [exact I|]. destruct K; [discriminate|assumption].
      + destruct r; simpl_state; try exact I; right; lia.
      + destruct tx as [|f q]; simpl_state; [exact K|]. destruct (mcast_packet f); simpl_state; [exact K|exact I].
      + destruct r; simpl_state; exact K.
      + destruct r; simpl_state; exact K.
      + destruct r as [| | |now address port b named]; simpl_state; auto.
        unfold datagram. simpl_state.
        destruct (mcast_receive _ _ _ _ _); simpl_state; [destruct (_ <? _)%nat; simpl_state|]; auto.
  Qed.

  Lemma conns_grow s a : (mc_conns s <= mc_conns (step s a))%nat.
  Proof.
    destruct s as [tx rx pl nd cn my lg]. simpl_state. destruct a as [f| |r]; cbn [McastIo.step].
    - unfold send_frame. simpl_state. destruct (_ <? _)%nat; simpl_state; lia.
    - unfold poll. simpl_state. destruct rx; simpl_state; lia.
    - unfold process_step. simpl_state. destruct pl as [| | |f' p'| | |]; simpl_state; try lia.
      + destruct nd; simpl_state; lia.
      + destruct r; simpl_state; lia.
      + destruct tx; simpl_state; lia.
      + destruct r; simpl_state; lia.
      + destruct r; simpl_state; lia.
      + destruct r as [| | |now address port b named]; simpl_state; try lia.
        unfold datagram. simpl_state.
        destruct (mcast_receive _ _ _ _ _); simpl_state; [destruct (_ <? _)%nat; simpl_state|]; lia.
  Qed.

  Lemma junk_dropped now my address port b : junk (now, port, b) -> mcast_receive now my address port b = None.
  Proof.
    intros J. unfold mcast_receive. destruct (match my with Some p => _ | None => _ end); [reflexivity|].
    apply mcast_dropped. exact J.
  Qed.

  (** The datagrams to be expected: frames of others, junk, and the own ones if
      the driver connected once and could ask for its port. *)
  Definition expected (acts : list act) (h : Z * N * list N) : Prop :=
    (exists f, foreign ports f h) \/ junk h \/
    (own ports h /\ (mc_conns (run start acts) <= 1)%nat /\ all_named acts).

  Lemma expected_prefix acts a h : expected (acts ++ [a]) h -> expected acts h.
  Proof.
    unfold expected. rewrite run_snoc. pose proof (conns_grow (run start acts) a) as G.
    intros [H|[H|(O & C & N)]]; auto. right. right. split; [exact O|]. split; [lia|].
    intros n ad p b I. apply (N n ad p b). apply in_or_app. auto.
  Qed.

  Lemma reception acts : let s := run start acts in
    ~ ended s -> Forall (expected acts) (heard (mc_log s)) ->
    reports ports (heard (mc_log s)) (delivered (mc_log s) ++ mc_rx s).
  Proof.
    cbv zeta. induction acts as [|a acts IH] using rev_ind; [constructor|].
    rewrite run_snoc.
    assert (KN : known (run start acts)).
    { clear. induction acts as [|a acts IH] using rev_ind; [intros p H; discriminate|]. rewrite run_snoc. apply known_step, IH. }
    assert (CO : connected (run start acts)).
    { clear. induction acts as [|a acts IH] using rev_ind; [left; reflexivity|]. rewrite run_snoc. apply connected_step, IH. }
    assert (EX : forall h, expected (acts ++ [a]) h ->
        expected acts h /\ (own ports h -> ~ junk h -> (forall f, ~ foreign ports f h) ->
          (mc_conns (run start acts) <= 1)%nat /\ all_named (acts ++ [a]))).
    { intros h H. split; [eapply expected_prefix; exact H|]. intros O NJ NF.
      destruct H as [(f & F)|[J|(_ & C & N)]]; [exfalso; eapply NF; exact F|contradiction|].
      split; [|exact N]. rewrite run_snoc in C. pose proof (conns_grow (run start acts) a). lia. }
    intros NE F.
    assert (IH' : ~ ended (run start acts) -> Forall (expected acts) (heard (mc_log (run start acts))) ->
       reports ports (heard (mc_log (run start acts))) (delivered (mc_log (run start acts)) ++ mc_rx (run start acts))) by exact IH.
    clear IH.
    assert (EXI : forall h, expected (acts ++ [a]) h -> expected acts h) by (intros h H; apply (EX h H)).
    assert (CN : forall h, expected (acts ++ [a]) h -> (exists f, foreign ports f h) \/ junk h \/
        (own ports h /\ (mc_conns (run start acts) <= 1)%nat /\ all_named (acts ++ [a]))).
    { intros h [H|[H|(O & C & N)]]; auto. right. right. split; [exact O|]. split; [|exact N].
      rewrite run_snoc in C. pose proof (conns_grow (run start acts) a). lia. }
    clear EX. destruct (run start acts) as [tx rx pl nd cn my lg]. unfold ended, known, connected in *. simpl_state.
    assert (K : forall o, (forall h, o <> h) \/ True -> heard [o] = [] -> delivered [o] = [] ->
        ~ pl = AtEnd -> Forall (expected (acts ++ [a])) (heard (lg ++ [o])) ->
        reports ports (heard (lg ++ [o])) (delivered (lg ++ [o]) ++ rx)).
    { intros o _ H1 H2 NP F'. rewrite heard_app, delivered_app, H1, H2, !app_nil_r in *.
      apply IH'; [exact NP|]. eapply Forall_impl; [|exact F']. exact EXI. }
    assert (K0 : pl <> AtEnd -> Forall (expected (acts ++ [a])) (heard lg) -> reports ports (heard lg) (delivered lg ++ rx)).
    { intros NP F'. apply IH'; [exact NP|]. eapply Forall_impl; [|exact F']. exact EXI. }
    destruct a as [f| |r]; cbn [McastIo.step] in *.
    - unfold send_frame in *. simpl_state. destruct (length tx <? tx_size)%nat; simpl_state; apply K; auto.
    - unfold poll in *. simpl_state. destruct rx as [|g rx]; simpl_state; [apply K0; assumption|].
      rewrite heard_app, delivered_app in *. change (heard [Delivered g]) with (@nil (Z * N * list N)) in *.
      change (delivered [Delivered g]) with [g]. rewrite app_nil_r in *. rewrite <- app_assoc. apply K0; assumption.
    - unfold process_step in *. simpl_state. destruct pl as [| | |f' p'| | |]; simpl_state.
      + destruct nd; simpl_state; apply K0; auto; discriminate.
      + destruct r; simpl_state; try (exfalso; apply NE; reflexivity); apply K0; auto; discriminate.
      + destruct tx as [|f q]; simpl_state; apply K0; auto; discriminate.
      + destruct r; simpl_state; apply K; auto; discriminate.
      + destruct r; simpl_state; apply K0; auto; discriminate.
      + destruct r as [| | |now address port b named]; simpl_state; try (apply K0; auto; discriminate).
        unfold datagram in *. simpl_state.
        set (my' := match my with Some p => Some p | None => if named then match cn with O => None | S n => Some (ports n) end else None end) in *.
        assert (K' : forall p, my' = Some p -> exists i, (i < cn)%nat /\ p = ports i).
        { intros p. subst my'. destruct my as [q|]; [apply KN|]. destruct named; [|discriminate].
          destruct cn as [|n]; [discriminate|]. intros H. injection H as <-. exists n. split; [lia|reflexivity]. }
        assert (HH : heard (lg ++ [Heard now address port b]) = heard lg ++ [(now, port, b)]) by (rewrite heard_app; reflexivity).
        assert (DD : delivered (lg ++ [Heard now address port b]) = delivered lg) by (rewrite delivered_app; apply app_nil_r).
        destruct (mcast_receive now my' address port b) as [g|] eqn:RC; simpl_state.
        * destruct (length rx <? rx_size)%nat; simpl_state; [|exfalso; apply NE; reflexivity].
          rewrite HH in *. rewrite DD. apply Forall_app in F as (F1 & F2). apply Forall_cons_iff in F2 as (F2 & _).
          rewrite app_assoc. destruct (CN _ F2) as [(f & FO)|[J|(O & C & N)]].
          -- eapply rep_frame; [apply K0; [discriminate|exact F1]|exact FO|].
             destruct FO as (OB & FP & PK). cbn [fst snd] in FP, PK.
             assert (NM : my' <> Some port).
             { intros E. destruct (K' port E) as (i & _ & ->). exact (FP i eq_refl). }
             destruct (mcast_received f now my' address port OB NM) as (p & E1 & g' & E2 & R).
             rewrite PK in E1. injection E1 as <-. rewrite RC in E2. injection E2 as ->. exact R.
          -- rewrite (junk_dropped now my' address port b J) in RC. discriminate.
          -- exfalso. unfold own in O. cbn [fst snd] in O.
             assert (C1 : cn = 1%nat) by lia. subst cn.
             assert (M : my' = Some port).
             { assert (NMD : named = true).
               { destruct named; [reflexivity|]. exfalso. eapply N. apply in_or_app. right. left. reflexivity. }
               subst my' named. destruct my as [q|]; [|rewrite O; reflexivity].
               destruct (KN q eq_refl) as (i & Li & ->). replace i with 0%nat by lia. rewrite O. reflexivity. }
             rewrite M in RC. unfold mcast_receive in RC. rewrite N.eqb_refl in RC. discriminate.
        * rewrite HH in *. rewrite DD. apply Forall_app in F as (F1 & F2). apply Forall_cons_iff in F2 as (F2 & _).
          destruct (CN _ F2) as [(f & FO)|[J|(O & C & N)]].
          -- exfalso. destruct FO as (OB & FP & PK). cbn [fst snd] in FP, PK.
             assert (NM : my' <> Some port).
             { intros E. destruct (K' port E) as (i & _ & ->). exact (FP i eq_refl). }
             destruct (mcast_received f now my' address port OB NM) as (p & E1 & g' & E2 & R).
             rewrite PK in E1. injection E1 as <-. rewrite RC in E2. discriminate.
          -- apply rep_other; [apply K0; [discriminate|exact F1]|left; exact J].
          -- apply rep_other; [apply K0; [discriminate|exact F1]|right; exact O].
      + exfalso. apply NE. reflexivity.
  Qed.
End Facts.

(** ** Two drivers *)

Lemma reports_in_order ports hs gs : reports ports hs gs -> forall fs, Forall on_bus fs ->
  Forall2 (fun f p => mcast_packet f = Ok p) fs (map snd (filter (fun h => negb (snd (fst h) =? ports 0%nat)%N) hs)) ->
  (forall h, In h hs -> snd (fst h) = ports 0%nat \/ forall i, ports i <> snd (fst h)) ->
  Forall2 (fun f g => exists now, received_at now f g) fs gs.
Proof.
  induction 1 as [|f g [[now port] b] hs gs R IH FO RA|[[now port] b] hs gs R IH JO]; intros fs B T P.
  - cbn in T. inversion T. constructor.
  - destruct FO as (OB & FP & PK). cbn [fst snd] in *. rewrite filter_app, map_app in T. cbn [filter fst snd] in T.
    destruct (N.eqb_spec port (ports 0%nat)) as [E|NE]; [exfalso; exact (FP 0%nat (eq_sym E))|]. cbn [negb map app snd] in T.
    apply Forall2_app_inv_r in T as (f1 & f2 & T1 & T2 & ->). inversion T2 as [|f' b' f2' l' E2 T3]; subst.
    inversion T3; subst. apply Forall_app in B as (B1 & B2). apply Forall_cons_iff in B2 as (B2 & _).
    apply Forall2_app.
    + apply IH; auto. intros h I. apply P. apply in_or_app. auto.
    + constructor; [|constructor]. exists now.
      destruct (mcast_received f now None 0%N port OB ltac:(discriminate)) as (p & Q1 & g1 & Q2 & S1).
      destruct (mcast_received f' now None 0%N port B2 ltac:(discriminate)) as (p' & Q1' & g1' & Q2' & S1').
      rewrite PK in Q1. injection Q1 as <-. rewrite E2 in Q1'. injection Q1' as <-. rewrite Q2 in Q2'. injection Q2' as <-.
      unfold received_at in *. intuition congruence.
  - cbn [fst snd] in *. rewrite filter_app, map_app in T. cbn [filter fst snd] in T.
    assert (P' : forall h, In h hs -> snd (fst h) = ports 0%nat \/ (forall i, ports i <> snd (fst h)))
      by (intros h I; apply P; apply in_or_app; auto).
    destruct (N.eqb_spec port (ports 0%nat)) as [E|NE]; cbn [negb map app snd] in T.
    + rewrite app_nil_r in T. apply IH; auto.
    + exfalso. destruct JO as [J|O]; [|exact (NE O)].
      apply Forall2_app_inv_r in T as (f1 & f2 & T1 & T2 & ->). inversion T2 as [|f' b' f2' l' E2 T3]; subst.
      apply Forall_app in B as (B1 & B2). apply Forall_cons_iff in B2 as (B2 & _).
      destruct (mcast_received f' now None 0%N port B2 ltac:(discriminate)) as (p' & Q1' & g1' & Q2' & S1').
      rewrite E2 in Q1'. injection Q1' as <-.
      rewrite (junk_dropped now None 0%N port b J) in Q2'. discriminate.
Qed.

Lemma two_drivers tx rx pa pb acts_a acts_b :
  calm acts_a -> keeps_up tx rx pa acts_a -> Forall on_bus (handed acts_a) ->
  let a := run tx rx pa start acts_a in let b := run tx rx pb start acts_b in
  idle a -> ~ ended b -> (mc_conns b <= 1)%nat -> all_named acts_b ->
  (forall h, In h (heard (mc_log b)) -> snd (fst h) = pb 0%nat \/ forall i, pb i <> snd (fst h)) ->
  map snd (filter (fun h => negb (snd (fst h) =? pb 0%nat)%N) (heard (mc_log b))) = sent (mc_log a) ->
  Forall2 (fun f g => exists now, received_at now f g) (accepted (mc_log a)) (delivered (mc_log b) ++ mc_rx b).
Proof.
  intros C K B a b (_ & I1 & I2) NE C1 NM P S.
  destruct (all_sent tx rx pa acts_a C K B) as (_ & out & A & T). fold a in A, T. rewrite I1, I2, !app_nil_r in A. rewrite A.
  assert (OB : Forall on_bus out).
  { rewrite <- A. rewrite Forall_forall in *. intros f I. apply B. apply (accepted_handed tx rx pa). exact I. }
  rewrite <- S in T.
  assert (X : forall h, In h (heard (mc_log b)) -> snd (fst h) <> pb 0%nat -> exists f, on_bus f /\ mcast_packet f = Ok (snd h)).
  { intros h I N. assert (IP : In (snd h) (map snd (filter (fun h => negb (snd (fst h) =? pb 0%nat)%N) (heard (mc_log b))))).
    { apply in_map, filter_In. split; [exact I|]. apply negb_true_iff, N.eqb_neq, N. }
    clear - T IP OB. induction T as [|f p fs ps E T IH]; [destruct IP|]. apply Forall_cons_iff in OB as (O1 & O2).
    destruct IP as [<-|IP]; [exists f; auto|apply IH; assumption]. }
  eapply reports_in_order; [apply (reception tx rx pb acts_b NE)|exact OB|exact T|exact P].
  apply Forall_forall. intros h I. fold b in I. destruct (N.eq_dec (snd (fst h)) (pb 0%nat)) as [E|N].
  - right. right. split; [exact E|]. split; assumption.
  - left. destruct (X h I N) as (f & O & E). exists f. split; [exact O|]. split; [|exact E].
    destruct (P h I) as [E'|E']; [contradiction|exact E'].
Qed.

(** ** What goes wrong *)

Lemma ended_run tx rx ports more : forall s, ended s ->
  ended (run tx rx ports s more) /\ sent (mc_log (run tx rx ports s more)) = sent (mc_log s).
Proof.
  induction more as [|a more IH]; intros s E; [auto|].
  change (run tx rx ports s (a :: more)) with (run tx rx ports (step tx rx ports s a) more).
  assert (K : ended (step tx rx ports s a) /\ sent (mc_log (step tx rx ports s a)) = sent (mc_log s)).
  { destruct s as [q r pl nd cn my lg]. unfold ended in *. cbn [mc_place] in E. subst pl. destruct a as [f| |x]; cbn [step].
    - unfold send_frame. destruct (_ <? _)%nat; cbn [see mc_place mc_log]; rewrite sent_app; split; try reflexivity; apply app_nil_r.
    - unfold poll. cbn [mc_rx]. destruct r; cbn [see mc_place mc_log]; [auto|]. rewrite sent_app. split; [reflexivity|apply app_nil_r].
    - unfold process_step. cbn. auto. }
  destruct K as (K1 & K2). destruct (IH _ K1) as (I1 & I2). split; [exact I1|]. congruence.
Qed.

(** A turn of the process in which a datagram comes. *)
Definition flood (b : list N) : list act :=
  [AProcess Fine; AProcess Fine; AProcess Fine; AProcess (Datagram 0 2 41000 b true)].

Lemma ended_process tx rx ports n b t : ended t -> run tx rx ports t (concat (repeat (flood b) n)) = t.
Proof.
  intros E. induction n as [|n IH]; [reflexivity|]. cbn [repeat concat]. rewrite run_app.
  replace (run tx rx ports t (flood b)) with t; [exact IH|].
  destruct t as [q r pl nd cn my lg]. unfold ended in E. cbn in E. subst pl. reflexivity.
Qed.

Lemma flood_turn tx rx ports b g : (forall i, ports i <> 41000%N) -> mcast_receive 0 None 2 41000 b = Some g ->
  forall s, mc_place s = AtTop -> mc_need s = false -> mc_tx s = [] -> known ports s ->
  let t := run tx rx ports s (flood b) in
  mc_tx t = [] /\ sent (mc_log t) = sent (mc_log s) /\ accepted (mc_log t) = accepted (mc_log s) /\
  if (length (mc_rx s) <? rx)%nat
  then mc_place t = AtTop /\ mc_need t = false /\ length (mc_rx t) = S (length (mc_rx s)) /\ known ports t
  else ended t.
Proof.
  intros NP RC s PL ND TX KN t.
  assert (KT : known ports t).
  { unfold t, flood, run. cbn [fold_left]. do 4 apply known_step. exact KN. }
  destruct s as [q r pl nd cn my lg]. cbn in PL, ND, TX. subst. revert KT. unfold t. clear t.
  cbn [run flood fold_left step process_step mc_place mc_need mc_tx go mc_rx mc_conns mc_my mc_log].
  unfold datagram. cbn [mc_place mc_need mc_tx go mc_rx mc_conns mc_my mc_log see].
  set (my' := match my with Some p => Some p | None => _ end).
  assert (NM : mcast_receive 0 my' 2 41000 b = Some g).
  { rewrite <- RC. unfold mcast_receive. destruct my' as [p|] eqn:E; [|reflexivity].
    destruct (N.eqb_spec p 41000) as [->|]; [|reflexivity]. exfalso. subst my'. destruct my as [p'|].
    - destruct (KN p' eq_refl) as (i & _ & ->). injection E as E. exact (NP i E).
    - destruct cn; [discriminate|]. injection E as E. exact (NP _ E). }
  clearbody my'. rewrite NM. intros KT.
  assert (S1 : sent (lg ++ [Heard 0 2 41000 b]) = sent lg) by (rewrite sent_app; apply app_nil_r).
  assert (S2 : accepted (lg ++ [Heard 0 2 41000 b]) = accepted lg) by (rewrite accepted_app; apply app_nil_r).
  destruct (length r <? rx)%nat; cbn [mc_place mc_need mc_tx go mc_rx mc_conns mc_my mc_log see] in *;
    (split; [reflexivity|]; split; [exact S1|]; split; [exact S2|]).
  - split; [reflexivity|]. split; [reflexivity|]. split; [rewrite app_length; cbn [length]; lia|exact KT].
  - reflexivity.
Qed.

Lemma flooded tx rx ports b g : (forall i, ports i <> 41000%N) -> mcast_receive 0 None 2 41000 b = Some g ->
  forall n s, mc_place s = AtTop -> mc_need s = false -> mc_tx s = [] -> known ports s ->
  (rx - length (mc_rx s) <= n)%nat ->
  let s' := run tx rx ports s (concat (repeat (flood b) (S n))) in
  ended s' /\ mc_tx s' = [] /\ sent (mc_log s') = sent (mc_log s) /\ accepted (mc_log s') = accepted (mc_log s).
Proof.
  intros NP RC. induction n as [|n IH]; intros s PL ND TX KN L;
    cbn [repeat concat]; rewrite run_app; cbv zeta;
    destruct (flood_turn tx rx ports b g NP RC s PL ND TX KN) as (T1 & T2 & T3 & T4).
  - destruct (Nat.ltb_spec (length (mc_rx s)) rx); [lia|]. cbn [concat]. auto.
  - destruct (length (mc_rx s) <? rx)%nat.
    + destruct T4 as (P1 & P2 & P3 & P4). rewrite <- T2, <- T3. apply (IH _ P1 P2 T1 P4). lia.
    + change (flood b ++ concat (repeat (flood b) n)) with (concat (repeat (flood b) (S n))).
      rewrite (ended_process tx rx ports (S n) b _ T4). auto.
Qed.

Definition flood_frame : cframe := CFrame 0x18EEFF01 [1; 2; 3]%N true false 5.
Lemma flood_frame_ok : on_bus flood_frame.
Proof. split; [reflexivity|]. split; [repeat constructor|cbn; lia]. Qed.

Lemma flood_stops tx_size rx_size ports : (0 < tx_size)%nat -> (forall i, ports i <> 41000%N) ->
  exists acts f, calm acts /\ on_bus f /\ handed acts = [f] /\
  let s := run tx_size rx_size ports start acts in
  accepted (mc_log s) = [f] /\ forall more, sent (mc_log (run tx_size rx_size ports s more)) = [].
Proof.
  intros TX NP.
  destruct (mcast_received flood_frame 0 None 2%N 41000%N flood_frame_ok ltac:(discriminate)) as (b & Eb & g & Eg & _).
  set (acts := [AProcess Fine; AProcess Fine] ++ concat (repeat (flood b) (S rx_size))).
  exists (acts ++ [ASend flood_frame]), flood_frame.
  assert (CF : forall n, ~ In (AProcess Raises) (concat (repeat (flood b) n))).
  { induction n as [|n IH]; [intros []|]. cbn [repeat concat]. intros I. apply in_app_or in I as [I|I]; [|exact (IH I)].
    cbn in I. clear - I. intuition discriminate. }
  assert (HF : forall n, handed (concat (repeat (flood b) n)) = []).
  { induction n as [|n IH]; [reflexivity|]. cbn [repeat concat]. unfold handed in *. rewrite flat_map_app, IH. reflexivity. }
  split.
  { intros I. apply in_app_or in I as [I|[I|[]]]; [|discriminate]. apply in_app_or in I as [I|I]; [|exact (CF _ I)].
    cbn in I. clear - I. intuition discriminate. }
  split; [exact flood_frame_ok|].
  split; [unfold acts, handed; rewrite !flat_map_app; fold (handed (concat (repeat (flood b) (S rx_size)))); rewrite HF; reflexivity|].
  cbv zeta. rewrite run_snoc. unfold acts. rewrite run_app.
  set (s0 := run tx_size rx_size ports start [AProcess Fine; AProcess Fine]).
  destruct (flooded tx_size rx_size ports b g NP Eg rx_size s0) as (E & T & SE & A); try reflexivity.
  { intros p H. discriminate. }
  { cbn. lia. }
  set (t := run tx_size rx_size ports s0 (concat (repeat (flood b) (S rx_size)))) in *. cbn [step].
  unfold send_frame. rewrite T. cbn [length]. destruct (Nat.ltb_spec 0 tx_size); [|lia].
  cbn [see mc_log]. split.
  - rewrite accepted_app, A. reflexivity.
  - intros more. etransitivity; [apply (ended_run tx_size rx_size ports more); exact E|].
    cbn [see mc_log]. rewrite sent_app, SE. reflexivity.
Qed.

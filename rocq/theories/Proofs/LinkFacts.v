(** Frames on their way through links and bridges. *)
From Verif.Base Require Import Prelude Bits.
From Verif.Model Require Import BitCodec Types Codec MsgId Frames TransferManager Node CanFrame Packets FileLog TsEst Slcan Bridge.
From Verif.Spec Require Import CodecSpec NodeSpec MsgIdSpec FrameSpec ReassemblySpec SendingSpec CrcSpec PacketSpec LogSpec SlcanSpec BridgeSpec LinkSpec.
From Verif.Proofs Require Import BitCodecFacts CrcFacts MsgIdFacts FrameFacts PacketFacts LogFacts SlcanFacts SlcanCliFacts BridgeFacts NodeFacts NodeTop.
Local Open Scope N_scope.

Lemma same_sendable f g : sendable f -> same_can f g -> sendable g.
Proof. intros ((H1 & H2 & H3) & H4 & H5) (E1 & E2 & E3 & E4). unfold sendable, on_bus. rewrite E1, E2, E3, E4. auto. Qed.
Lemma received_same now f g : received_at now f g -> same_can f g.
Proof. intros (E1 & E2 & E3 & E4 & _). repeat split; assumption. Qed.
Lemma Forall2_left {A B} (P : A -> Prop) (R S : A -> B -> Prop) l m :
  (forall a b, P a -> R a b -> S a b) -> Forall P l -> Forall2 R l m -> Forall2 S l m.
Proof. intros H F K. induction K; constructor; inversion F; subst; auto. Qed.
Lemma selects_all {A} (P : A -> Prop) l l' : Forall P l -> selects P l l' -> l' = l.
Proof.
  intros F S. induction S as [|x l l' Hx S IH|x l l' Hx S IH]; [reflexivity| |]; inversion F as [|? ? H1 H2]; subst.
  - rewrite IH by assumption. reflexivity.
  - contradiction.
Qed.

(** The serial line *)
Lemma slcan_lines fs : forall lines, Forall sendable fs ->
  Forall2 (fun f l => exists line line' r, slcan_encode f = Ok (line ++ [CR]) /\
     frame_line r None line /\ frame_line r None line' /\ l = line' ++ [CR]) fs lines ->
  no_times (complete_lines [] (concat lines)) /\ Forall2 as_received fs (frames_in (complete_lines [] (concat lines))).
Proof.
  induction fs as [|f fs IH]; intros lines F H; inversion H as [|? l ? ls (line & line' & r & E & L & L' & ->) K]; subst.
  - split; [constructor|constructor].
  - apply Forall_cons_iff in F as (Hf & F). destruct (IH ls F K) as (I1 & I2).
    apply line_parsed in L as (P & _). apply line_parsed in L' as (P' & C').
    destruct Hf as (Hb & He & Hl). destruct (encoded f Hb He Hl) as (line0 & g & E0 & Hg & L0). rewrite E in E0.
    injection E0 as E0. apply app_inj_tail in E0 as (<- & _). apply line_parsed in L0 as (P0 & _). rewrite P in P0. injection P0 as <-.
    cbn [concat]. rewrite <- app_assoc. cbn [app]. rewrite (proj1 (complete_cr _ _ C')). split.
    + constructor; [|exact I1]. intros f0 t. rewrite P'. cbn [option_map]. discriminate.
    + unfold frames_in in *. cbn [flat_map]. rewrite P'. cbn [app]. constructor; assumption.
Qed.

Lemma shifted_same start fs : Forall2 same_can fs (shifted start fs).
Proof.
  destruct fs as [|f0 fs0]; [constructor|]. cbn [shifted]. generalize (c_ts f0) as t0. intros t0. generalize (f0 :: fs0). clear.
  induction l; constructor; [repeat split|assumption].
Qed.
Lemma map_ok_inj {A} (a b : list A) : map (@Ok A) a = map Ok b -> a = b.
Proof. revert b. induction a as [|x a IH]; intros [|y b] E; try discriminate; [reflexivity|]. injection E as -> E. f_equal. auto. Qed.

Lemma hop_same fs gs : Forall sendable fs -> hop fs gs -> Forall2 same_can fs gs.
Proof.
  intros F H. destruct H as [fs gs H|fs gs H|bus fs gs H|fs lines params reads gs H S D|f fs now r start calls gs L O Len R|ids n i j steps log Hj Hij Hidle Hw].
  - eapply Forall2_left; [|exact F|exact H]. intros f g (Hb & _) (p & now & E & E').
    destruct (sock_roundtrip f now Hb) as (p' & K & g' & K' & R). rewrite E in K. injection K as <-. rewrite E' in K'. injection K' as <-.
    eapply received_same; exact R.
  - eapply Forall2_left; [|exact F|exact H]. intros f g (Hb & _) (p & now & my & ad & po & Hp & E & E').
    destruct (mcast_received f now my ad po Hb Hp) as (p' & K & g' & K' & R). rewrite E in K. injection K as <-. rewrite E' in K'. injection K' as <-.
    eapply received_same; exact R.
  - eapply Forall2_left; [|exact F|exact H]. intros f g (Hb & _) (m & now & E & ->).
    destruct (mav_roundtrip bus f now Hb) as (m' & K & _ & _ & R). rewrite E in K. injection K as <-.
    eapply received_same; exact R.
  - destruct (slcan_lines fs lines F H) as (NT & A). rewrite <- S in NT, A.
    assert (Ed : delivered (rx_reads params rx_new reads) = frames_in (complete_lines [] (stream reads))).
    { rewrite (reads_tagged params reads rx_new (fun x => x)). rewrite <- tagged_lines in *. exact (untimed params _ rx_new NT). }
    rewrite Ed in D. revert D. clear -A. generalize dependent gs. induction A as [|f r fs rs (E1 & E2 & E3 & E4) A IH]; intros gs D.
    + inversion D. constructor.
    + inversion D as [|? g ? gs' (ts & ->) D']; subst. constructor; [|apply IH; exact D']. unfold same_can. cbn [c_id c_data c_ext c_fd].
      rewrite E1, E2, E3, E4, N2Z.id. auto.
  - destruct (playback f fs [] now start None calls L) as (r' & O' & out & E & P); [cbn; lia|]. rewrite app_nil_r in O', E.
    rewrite O in O'. injection O' as <-. rewrite R in E. apply map_ok_inj in E as ->.
    assert (out = shifted start (f :: fs)) as ->; [|apply shifted_same].
    eapply plays_all; [exact P|]. cbn [shifted]. rewrite map_length. exact Len.
  - pose proof (forwarded_idle ids n i j steps Hj Hij Hidle) as S. fold log in S. rewrite (selects_all _ _ _ Hw S).
    clear. induction (received i log); constructor; [repeat split|assumption].
Qed.
Lemma same_trans fs gs hs : Forall2 same_can fs gs -> Forall2 same_can gs hs -> Forall2 same_can fs hs.
Proof.
  intros H. revert hs. induction H as [|f g fs gs (A1 & A2 & A3 & A4) H IH]; intros hs K; inversion K as [|? h ? hs' (B1 & B2 & B3 & B4) K']; subst; constructor; [|auto].
  unfold same_can. rewrite B1, B2, B3, B4. auto.
Qed.
Lemma same_all fs gs : Forall sendable fs -> Forall2 same_can fs gs -> Forall sendable gs.
Proof. intros F H. induction H; constructor; inversion F; subst; eauto using same_sendable. Qed.
Lemma route_same fs gs : Forall sendable fs -> route fs gs -> Forall2 same_can fs gs.
Proof.
  intros F H. induction H as [fs|fs gs hs H R IH].
  - clear. induction fs; constructor; [repeat split|assumption].
  - pose proof (hop_same _ _ F H) as S. eapply same_trans; [exact S|]. apply IH. eapply same_all; eassumption.
Qed.

(** What a node gives to its driver. *)
Lemma tail_byte_lt a b c t : tail_byte a b c t < 256.
Proof. unfold tail_byte. destruct a, b, c; lia. Qed.
Lemma legal_small n : (n <= 8)%nat -> In (N.of_nat n) legal_lengths.
Proof. intros H. do 9 (destruct n as [|n]; [cbn; tauto|]). lia. Qed.
Lemma fd_legal n : In n fd_lengths -> In (N.of_nat n) legal_lengths.
Proof. intros H. cbn [fd_lengths In] in H. repeat (destruct H as [<-|H]; [cbn; tauto|]). destruct H. Qed.
Lemma in_removelast {A} (x : A) l : In x (removelast l) -> In x l.
Proof. induction l as [|a [|b l] IH]; [intros []|intros []|]. intros [->|H]; [now left|right; apply IH; exact H]. Qed.
Lemma sent_sendable types sd fs ts : proper types sd -> sent sd fs ->
  s_canfd sd = false \/ Forall (fun f => In (length (f_bytes f)) fd_lengths) fs ->
  Forall (fun f => sendable (given ts f)) fs.
Proof.
  intros [Hleg Hid _ _ _ _] (t & padded & Hmk & Hto) Hfd. destruct sd as [h tid dt v canfd]. cbn [s_header s_tid s_datatype s_value s_canfd] in *.
  unfold make_tx in Hmk. apply bind_ok in Hmk as (p0 & Hp0 & Hmk). injection Hmk as <-.
  rewrite <- Hid in Hto.
  assert (Header (h_priority h) (h_service h) (h_request h) (h_source h) (h_dest h) (h_dtid h)
            (h_discriminator h) = h) as Eh by (destruct h; reflexivity). rewrite Eh in Hto.
  set (t := Tx h tid p0 (dt_crc dt) canfd) in Hto.
  destruct (to_frames_wf t (can_id h) (message_id_layout h Hleg)) as (fs0 & padded0 & Hto' & (z & Hz & _) & Hs1 & Hmul).
  rewrite Hto in Hto'. injection Hto' as <- <-.
  assert (byte_string padded) as Hbp.
  { unfold payload_bytes in Hp0. apply bind_ok in Hp0 as (b & _ & Hp0). injection Hp0 as Hp0.
    rewrite Hz. apply Forall_app. split.
    - cbn [tx_payload t]. rewrite <- Hp0. apply bytes_from_bits_bytes.
    - apply Forall_forall. intros x Hx. apply repeat_spec in Hx. subst x. reflexivity. }
  assert (exists body, carries (can_id h) canfd tid body fs /\ byte_string body) as (body & Hc & Hbody).
  { destruct (Nat.le_gt_cases (length (tx_payload t)) (capacity (tx_canfd t))) as [Hle|Hgt].
    - destruct (Hs1 Hle) as [_ Hc]. exists padded. split; assumption.
    - destruct (Hmul Hgt) as [_ (lo0 & hi0 & _ & L & H' & Hc)]. exists (lo0 :: hi0 :: padded). split; [exact Hc|].
      constructor; [exact L|]. constructor; assumption. }
  destruct Hc as [_ Hcat Hf]. apply Forall_forall. intros f Hin. destruct (In_nth_error _ _ Hin) as (i & Hi).
  destruct (Hf i f Hi) as (E1 & E2 & piece & E3 & L & _).
  assert (Hlen : length (f_bytes f) = S (length piece)) by (rewrite E3, app_length; cbn [length]; lia).
  unfold sendable, on_bus, given. cbn [c_id c_data c_ext c_fd]. rewrite E1, E2, Hlen.
  split; [split; [|split]|split].
  - apply message_id_range. exact Hleg.
  - rewrite E3. apply Forall_app. split; [|constructor; [apply tail_byte_lt|constructor]].
    apply Forall_forall. intros x Hx. unfold byte_string in Hbody. rewrite Forall_forall in Hbody. apply Hbody. rewrite <- Hcat.
    apply in_concat. exists (removelast (f_bytes f)). split; [apply (in_map (fun f => removelast (f_bytes f))); exact Hin|].
    rewrite E3, removelast_last. exact Hx.
  - unfold capacity in L. destruct canfd; lia.
  - reflexivity.
  - destruct Hfd as [->|Hfd]; [apply legal_small; unfold capacity in L; lia|].
    rewrite Forall_forall in Hfd. rewrite <- Hlen. apply fd_legal, Hfd, Hin.
Qed.

(** Filtering by key *)
Lemma same_key a b : same_frame a b -> transfer_key a = transfer_key b.
Proof. intros (E1 & E2 & _). unfold transfer_key. rewrite E1, E2. reflexivity. Qed.
Lemma filter_same k fs gs : Forall2 same_frame fs gs -> Forall2 same_frame (filter (has_key k) fs) (filter (has_key k) gs).
Proof.
  intros H. induction H as [|f g fs gs E H IH]; [constructor|]. cbn [filter]. assert (has_key k f = has_key k g) as -> by (unfold has_key; rewrite (same_key f g E); reflexivity).
  destruct (has_key k g); [constructor|]; assumption.
Qed.
Lemma heard_same fs gs : Forall2 same_can fs gs -> Forall2 same_frame (map as_heard fs) (map as_heard gs).
Proof.
  intros H. induction H as [|f g fs gs (E1 & E2 & _ & E4) H IH]; constructor; [|assumption].
  unfold same_frame, as_heard. cbn. auto.
Qed.
Lemma same_frame_trans a b c : same_frame a b -> same_frame b c -> same_frame a c.
Proof. intros (E1 & E2 & E3) (F1 & F2 & F3). unfold same_frame. rewrite E1, E2, E3. auto. Qed.
Lemma same_frames_trans a : forall b c, Forall2 same_frame a b -> Forall2 same_frame b c -> Forall2 same_frame a c.
Proof.
  induction a as [|x a IH]; intros b c H K; inversion H; subst; inversion K; subst; constructor; eauto using same_frame_trans.
Qed.

Lemma arrived k fs earlier fs' traffic gs ins f : fs <> [] ->
  Forall2 same_can traffic gs -> map as_heard gs = ins ++ [f] -> has_key k f = true ->
  filter (has_key k) (map as_heard traffic) = earlier ++ fs' -> Forall2 same_frame fs fs' ->
  exists earlier' pre, Forall2 same_frame fs (pre ++ [f]) /\ filter (has_key k) ins = earlier' ++ pre.
Proof.
  intros Hne S Eg Hf Et F. apply heard_same, (filter_same k) in S. rewrite Et, Eg, filter_app in S. cbn [filter] in S. rewrite Hf in S.
  apply Forall2_app_inv_l in S as (e1 & e2 & S1 & S2 & E). exists e1.
  destruct e2 as [|x e2 _] using rev_ind.
  - inversion S2; subst. inversion F; subst. congruence.
  - rewrite app_assoc in E. apply app_inj_tail in E as (E & <-). exists e2. split; [|exact E].
    eapply same_frames_trans; eassumption.
Qed.

(** Every link takes such frames. *)
Lemma slcan_takes params fs : Forall sendable fs -> exists gs lines reads, hop fs gs /\
  Forall2 (fun f l => slcan_encode f = Ok l) fs lines /\ stream reads = concat lines /\
  Forall2 (fun r g => exists ts, read_at ts r g) (delivered (rx_reads params rx_new reads)) gs.
Proof.
  intros F.
  assert (exists lines, Forall2 (fun f l => exists line line' r, slcan_encode f = Ok (line ++ [CR]) /\
     frame_line r None line /\ frame_line r None line' /\ l = line' ++ [CR]) fs lines /\
     Forall2 (fun f l => slcan_encode f = Ok l) fs lines) as (lines & H & H').
  { induction F as [|f fs (Hb & He & Hl) F (lines & IH & IH')]; [exists []; split; constructor|].
    destruct (encoded f Hb He Hl) as (line & g & E & _ & L). exists ((line ++ [CR]) :: lines).
    split; constructor; eauto 10. }
  set (reads := [(concat lines, 0%Z, 0%Z)]).
  assert (S : stream reads = concat lines) by (unfold stream, reads; cbn [map fst concat]; apply app_nil_r).
  set (rs := delivered (rx_reads params rx_new reads)).
  exists (map (fun r => CFrame (Z.to_N (r_id r)) (r_data r) (r_ext r) (r_fd r) 0) rs), lines, reads.
  assert (G : Forall2 (fun r g => exists ts, read_at ts r g) rs (map (fun r => CFrame (Z.to_N (r_id r)) (r_data r) (r_ext r) (r_fd r) 0) rs)).
  { clearbody rs. clear. induction rs; constructor; [exists 0%Z; reflexivity|assumption]. }
  split; [exact (hop_slcan fs lines params reads _ H S G)|]. auto.
Qed.
Lemma packets_take now myport address port bus fs : myport <> Some port -> Forall sendable fs ->
  (exists gs, Forall2 (fun f g => exists p, sock_packet f = Ok p /\ sock_parse now p = Ok g) fs gs) /\
  (exists gs, Forall2 (fun f g => exists p, mcast_packet f = Ok p /\ mcast_receive now myport address port p = Some g) fs gs) /\
  (exists gs, Forall2 (fun f g => exists m, mav_message bus f = Some m /\ g = mav_parse now m) fs gs).
Proof.
  intros Hp F. split; [|split]; induction F as [|f fs (Hb & _) F (gs & IH)]; try (exists []; constructor).
  - destruct (sock_roundtrip f now Hb) as (p & K & g & K' & _). exists (g :: gs). constructor; eauto.
  - destruct (mcast_received f now myport address port Hb Hp) as (p & K & g & K' & _). exists (g :: gs). constructor; eauto.
  - destruct (mav_roundtrip bus f now Hb) as (m & K & _). exists (mav_parse now m :: gs). constructor; eauto.
Qed.

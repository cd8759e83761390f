From Verif.Base Require Import Prelude Bits.
From Verif.Model Require Import BitCodec Types Codec Crc MsgId Frames TransferManager.
From Verif.Spec Require Import CodecSpec CrcSpec MsgIdSpec FrameSpec ReassemblySpec SendingSpec.
From Verif.Proofs Require Import CrcFacts MsgIdFacts FrameFacts ReassemblyFacts ManagerFacts.

(** ** Staleness in terms of arrivals *)
Lemma feed_app a : forall m b, fst (feed m (a ++ b)) = fst (feed (fst (feed m a)) b).
Proof.
  induction a as [|[f now] a IH]; intros m b; [reflexivity|]. cbn [feed app].
  destruct (receive_frame m f now) as [m1 o]. specialize (IH m1 b).
  destruct (feed m1 (a ++ b)), (feed m1 a). exact IH.
Qed.

Lemma last_arrival_snoc k f now : forall a,
  last_arrival k (a ++ [(f, now)]) = if has_key k f then Some now else last_arrival k a.
Proof.
  induction a as [|[g t] a IH]; cbn [last_arrival app]; [reflexivity|].
  rewrite IH. destruct (has_key k f); reflexivity.
Qed.

Lemma feed_one m f now : fst (feed m [(f, now)]) = fst (receive_frame m f now).
Proof. cbn. destruct (receive_frame m f now). reflexivity. Qed.

Lemma times_arrival k : forall arr,
  let m := fst (feed new_manager arr) in
  dget key_eqb (m_active m) k <> None -> dget key_eqb (m_times m) k = last_arrival k arr.
Proof.
  cbv zeta. induction arr as [|[f now] arr IH] using rev_ind; [cbn; congruence|].
  rewrite feed_app, feed_one, last_arrival_snoc.
  pose proof (feed_nodup arr new_manager (NoDup_nil _)) as Hnd.
  pose proof (times_track arr new_manager eq_refl) as Htr.
  set (m := fst (feed new_manager arr)) in *.
  pose proof (receive_step m f now Hnd) as Hr. unfold receive_frame in *.
  destruct (has_key k f) eqn:Ek.
  - apply has_key_true in Ek. rewrite Ek in *.
    destruct (dmem key_eqb (m_active m) k || start_of_transfer f) eqn:Em.
    + destruct (end_of_transfer f); cbn [fst m_active m_times] in *; intros H.
      * exfalso. apply H.
        destruct (start_of_transfer f); apply (dget_ddel_same key_eqb key_eqb_spec);
          repeat (apply dset_nodup; [apply key_eqb_spec|]); exact Hnd.
      * apply (dget_dset_same key_eqb key_eqb_spec).
    + cbn [fst]. intros H. exfalso. apply orb_false_iff in Em as [Em _]. unfold dmem in Em.
      destruct (dget key_eqb (m_active m) k); [discriminate|congruence].
  - assert (k <> transfer_key f) as Hne.
    { intros ->. rewrite (proj2 (has_key_true _ f)) in Ek by reflexivity. discriminate. }
    set (k0 := transfer_key f) in *.
    destruct (dmem key_eqb (m_active m) k0 || start_of_transfer f); [|exact IH].
    destruct (end_of_transfer f); destruct Hr as (_ & _ & Ho); cbn [fst m_active m_times] in *; intros H;
      rewrite Ho in H by exact Hne;
      rewrite ?(dget_ddel_other key_eqb key_eqb_spec), ?(dget_dset_other key_eqb key_eqb_spec) by congruence;
      apply IH; exact H.
Qed.

Theorem cleanup_exact arr now timeout :
  let m := fst (feed new_manager arr) in
  let '(m', r) := remove_inactive_transfers m now timeout in
  match find (is_stale arr now timeout) (pending_keys m) with
  | None => m' = m /\ r = Ok tt
  | Some k => r = Err RuntimeError /\ dget key_eqb (m_active m') k = None /\
      forall k', k' <> k -> dget key_eqb (m_active m') k' = dget key_eqb (m_active m) k'
  end.
Proof.
  cbv zeta. pose proof (remove_inactive_exact arr now timeout) as H. cbv zeta in H.
  pose proof (fun k => times_arrival k arr) as Hta. cbv zeta in Hta.
  pose proof (feed_nodup arr new_manager (NoDup_nil _)) as Hnd.
  set (m := fst (feed new_manager arr)) in *. rewrite H. clear H. unfold pending_keys.
  assert (find (is_stale arr now timeout) (map fst (m_active m)) =
          find (stale m now timeout) (map fst (m_active m))) as ->.
  { assert (forall k, In k (map fst (m_active m)) -> is_stale arr now timeout k = stale m now timeout k) as Hs.
    { intros k Hk. unfold is_stale, stale. rewrite Hta; [reflexivity|].
      intros E. apply (dget_None_keys key_eqb key_eqb_spec) in E. contradiction. }
    clear Hta Hnd. induction (map fst (m_active m)) as [|k l IH]; [reflexivity|]. cbn [find].
    rewrite Hs by (left; reflexivity). destruct (stale m now timeout k); [reflexivity|].
    apply IH. intros k' Hk'. apply Hs. right. exact Hk'. }
  destruct (find (stale m now timeout) (map fst (m_active m))) as [k|]; [|auto].
  split; [reflexivity|]. cbn [m_active]. split.
  - apply (dget_ddel_same key_eqb key_eqb_spec). exact Hnd.
  - intros k' Hk'. apply (dget_ddel_other key_eqb key_eqb_spec). congruence.
Qed.

(** ** End to end *)
Theorem sent_received types s : proper types s ->
  exists fs, sent s fs /\
  forall fs', Forall2 same_frame fs fs' ->
  exists r, from_frames types fs' = Ok r /\ faithful s r /\
    rx_ts_monotonic r = f_ts_monotonic (hd (Frame 0 [] false None None) fs') /\
    rx_ts_real r = f_ts_real (hd (Frame 0 [] false None None) fs').
Proof.
  intros [H1 H2 H3 H4 H5 H6].
  destruct (transfer_roundtrip types _ _ (s_tid s) _ (s_canfd s) H1 H2 H3 H5 H6)
    as (t & fs & padded & E1 & E2 & Hr).
  exists fs. split; [exists t, padded; auto|]. intros fs' Hs.
  destruct (Hr fs' Hs) as (r & E & F1 & F2 & F3 & F4 & F5 & F6 & F7).
  exists r. repeat split; auto.
Qed.

Lemma sent_det s fs fs' : sent s fs -> sent s fs' -> fs = fs'.
Proof. intros (t & p & E1 & E2) (t' & p' & E1' & E2'). congruence. Qed.

Lemma sent_carries types s fs : proper types s -> sent s fs ->
  exists body, carries (can_id (s_header s)) (s_canfd s) (s_tid s) body fs.
Proof.
  intros Hp (t & padded & Hmk & Hto). destruct Hp as [Hleg Hid _ _ _ _].
  unfold make_tx in Hmk. apply bind_ok in Hmk as (p0 & _ & Hmk). injection Hmk as <-.
  rewrite <- Hid in Hto. set (h := s_header s) in *.
  assert (Header (h_priority h) (h_service h) (h_request h) (h_source h) (h_dest h) (h_dtid h)
            (h_discriminator h) = h) as Eh by (destruct h; reflexivity). rewrite Eh in Hto.
  set (t := Tx h (s_tid s) p0 (dt_crc (s_datatype s)) (s_canfd s)) in Hto.
  destruct (to_frames_wf t (can_id h) (message_id_layout h Hleg)) as (fs0 & padded0 & Hto' & _ & Hs1 & Hmul).
  rewrite Hto in Hto'. injection Hto' as <- <-.
  destruct (Nat.le_gt_cases (length (tx_payload t)) (capacity (tx_canfd t))) as [Hle|Hgt].
  - destruct (Hs1 Hle) as [_ Hc]. eauto.
  - destruct (Hmul Hgt) as [_ (lo0 & hi0 & _ & _ & _ & Hc)]. eauto.
Qed.

Lemma Forall2_nth_both {A B} (R : A -> B -> Prop) l l' : Forall2 R l l' ->
  forall i a b, nth_error l i = Some a -> nth_error l' i = Some b -> R a b.
Proof.
  intros H i a b Ha Hb. destruct (Forall2_nth_r R l l' H i b Hb) as (a' & Ha' & Hab). congruence.
Qed.

Theorem network_delivery types ss foreign received arr :
  Forall (proper types) ss -> NoDup (map sending_key ss) ->
  Forall (fun f => ~ In (transfer_key f) (map sending_key ss)) foreign ->
  Forall2 (fun s fs' => exists fs, sent s fs /\ Forall2 same_frame fs fs') ss received ->
  interleaving (foreign :: received) (map fst arr) ->
  forall i s fs', nth_error ss i = Some s -> nth_error received i = Some fs' ->
  delivered (sending_key s) arr = [fs'] /\
  exists r, from_frames types fs' = Ok r /\ faithful s r.
Proof.
  intros Hp Hnd Hfor Hsent Hint i s fs' Hi Hi'. split.
  - apply (interleaved_delivered (map sending_key ss) received foreign arr) with (i := i); auto.
    + clear - Hp Hsent. revert Hp. induction Hsent as [|s fs' ss received (fs & Hs & Hsame) H IH]; intros Hp;
        constructor; inversion Hp; subst; auto.
      destruct (sent_carries types s fs ltac:(assumption) Hs) as [body Hc].
      apply (carries_one_transfer _ (s_canfd s) _ body). eapply carries_same; eassumption.
    + rewrite nth_error_map, Hi. reflexivity.
  - rewrite Forall_forall in Hp. pose proof (Hp s (nth_error_In _ _ Hi)) as Hps.
    destruct (Forall2_nth_both _ _ _ Hsent _ _ _ Hi Hi') as (fs & Hs & Hsame).
    destruct (sent_received types s Hps) as (fs0 & Hs0 & Hr).
    rewrite (sent_det _ _ _ Hs0 Hs) in Hr. destruct (Hr fs' Hsame) as (r & E & F & _). eauto.
Qed.

Theorem sent_faulty types s fs fs' K arr : proper types s -> sent s fs ->
  Forall2 same_frame fs fs' -> (2 <= length fs)%nat -> fault fs' K ->
  frames_with (sending_key s) arr = K ->
  forall o, In o (delivered (sending_key s) arr) ->
    o = fs' \/ from_frames types o = Err TransferError.
Proof.
  intros Hp Hs Hsame H2 Hf HK o Ho. destruct (sent_carries types s fs Hp Hs) as [body Hc].
  eapply faulty_delivery; [eapply carries_same; eassumption| |exact Hf|reflexivity|exact HK|exact Ho].
  rewrite <- (Forall2_len _ _ _ Hsame). exact H2.
Qed.

Theorem sent_burst types s fs fs' lo hi p p' : proper types s -> sent s fs -> (2 <= length fs)%nat ->
  Forall2 same_envelope fs fs' ->
  frames_body fs = lo :: hi :: p -> frames_body fs' = lo :: hi :: p' -> byte_string p' ->
  burst 16 (bit_string p) (bit_string p') ->
  from_frames types fs' = Err TransferError.
Proof. intros [? ? ? ? ? ?] (t & padded & Hmk & Hto). intros. eapply burst_noticed; eassumption. Qed.

Theorem sent_crc_bytes types s fs fs' lo hi p lo' hi' : proper types s -> sent s fs -> (2 <= length fs)%nat ->
  Forall2 same_envelope fs fs' ->
  frames_body fs = lo :: hi :: p -> frames_body fs' = lo' :: hi' :: p ->
  (lo' < 256)%N -> (hi' < 256)%N -> (lo', hi') <> (lo, hi) ->
  from_frames types fs' = Err TransferError.
Proof. intros [? ? ? ? ? ?] (t & padded & Hmk & Hto). intros. eapply crc_bytes_noticed; eassumption. Qed.

(** ** Identifiers *)
Theorem can_id_injective h1 h2 : legal h1 -> legal h2 -> message_id h1 = message_id h2 -> h1 = h2.
Proof.
  intros H1 H2 E. rewrite (message_id_layout _ H1), (message_id_layout _ H2) in E. injection E as E.
  rewrite <- (decode_encode _ H1), <- (decode_encode _ H2), E. reflexivity.
Qed.

Theorem id_roundtrip h : legal h ->
  exists id, message_id h = Ok id /\ set_message_id fresh_header id = h.
Proof. intros H. exists (can_id h). split; [apply message_id_layout|apply decode_encode]; exact H. Qed.

Theorem id_back v : (v < 2 ^ 29)%N ->
  let h := set_message_id fresh_header v in
  (legal h /\ message_id h = Ok v) \/
  (h_service h = true /\ h_dest h = Some 0%N /\ exists e, message_id h = Err e).
Proof.
  intros Hv h. pose proof (encode_decode v Hv) as Hed. cbv zeta in Hed. change (set_message_id fresh_header v) with h in Hed.
  clearbody h. destruct Hed as [[Hl E]|[Hs Hd]].
  - left. split; [exact Hl|]. rewrite <- E. apply message_id_layout. exact Hl.
  - right. split; [exact Hs|]. split; [exact Hd|].
    destruct (message_id h) as [x|e] eqn:E; [|eauto].
    apply (message_id_refuses h Hs) in E as (_ & d & Hd' & H). rewrite Hd in Hd'. injection Hd' as <-. lia.
Qed.

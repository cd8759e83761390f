From Verif.Base Require Import Prelude Bits.
From Verif.Model Require Import BitCodec Types Codec Crc MsgId Frames TransferManager.
From Verif.Spec Require Import CodecSpec CrcSpec MsgIdSpec FrameSpec ReassemblySpec SendingSpec.
From Verif.Proofs Require Import BitCodecFacts CodecTop CrcFacts MsgIdFacts FrameFacts.
Local Open Scope N_scope.

(** ** The tail check *)
Definition good_tail (tid : N) (n i : nat) (f : frame) : Prop :=
  exists tb, last_byte (f_bytes f) = Some tb /\ N.land tb 0x1F = tid /\
    flag tb 0x80 = Nat.eqb i 0 /\ flag tb 0x40 = Nat.eqb (S i) n /\ flag tb 0x20 = Nat.odd i.

Lemma check_tails_spec tid : forall fs idx,
  let n := (idx + length fs)%nat in
  let r := check_tails fs n idx (if Nat.odd idx then 0x20 else 0) tid in
  (r = Ok tt <-> forall i f, nth_error fs i = Some f -> good_tail tid n (idx + i) f) /\
  ((forall f, In f fs -> f_bytes f <> []) -> r = Ok tt \/ r = Err TransferError).
Proof.
  induction fs as [|f fs IH]; intros idx n r.
  - subst r. cbn. split; [|auto]. split; [|auto]. intros _ [|i] f; discriminate.
  - specialize (IH (S idx)). cbv zeta in IH.
    assert (S idx + length fs = n)%nat as En by (unfold n; cbn [length]; lia). rewrite En in IH.
    assert ((if Nat.odd (S idx) then 0x20 else 0) =
            N.lxor (if Nat.odd idx then 0x20 else 0) 0x20) as Et.
    { rewrite Nat.odd_succ, <- Nat.negb_odd. destruct (Nat.odd idx); reflexivity. }
    rewrite Et in IH. destruct IH as [IH1 IH2].
    assert (n - 1 = idx + length fs)%nat as En1 by lia.
    unfold r. cbn [check_tails]. destruct (last_byte (f_bytes f)) as [tb|] eqn:El.
    2:{ split.
        - split; [discriminate|]. intros H. destruct (H 0%nat f eq_refl) as (tb & Htb & _). congruence.
        - intros H. exfalso. specialize (H f (or_introl eq_refl)). destruct (f_bytes f); [auto|discriminate]. }
    assert (good_tail tid n idx f <->
      N.land tb 0x1F = tid /\ flag tb 0x80 = Nat.eqb idx 0 /\ flag tb 0x40 = Nat.eqb (S idx) n /\
      flag tb 0x20 = Nat.odd idx) as Hg.
    { unfold good_tail. split.
      - intros (tb' & Htb' & H). rewrite El in Htb'. injection Htb' as <-. exact H.
      - intros H. exists tb. auto. }
    assert ((forall i f', nth_error (f :: fs) i = Some f' -> good_tail tid n (idx + i) f') <->
            good_tail tid n idx f /\ forall i f', nth_error fs i = Some f' -> good_tail tid n (S idx + i) f') as Hsplit.
    { split.
      - intros H. split; [specialize (H 0%nat f eq_refl); rewrite Nat.add_0_r in H; exact H|].
        intros i f' Hf. specialize (H (S i) f' Hf). replace (idx + S i)%nat with (S idx + i)%nat in H by lia.
        exact H.
      - intros [H0 H] [|i] f' Hf; [rewrite Nat.add_0_r; injection Hf as <-; exact H0|].
        replace (idx + S i)%nat with (S idx + i)%nat by lia. apply H. exact Hf. }
    rewrite Hsplit, Hg.
    assert (N.land tb 0x20 =? (if Nat.odd idx then 0x20 else 0) = eqb (flag tb 0x20) (Nat.odd idx)) as Htog.
    { change 0x20 with (2 ^ 5). rewrite land_pow2_flag.
      destruct (flag tb (2 ^ 5)), (Nat.odd idx); reflexivity. }
    rewrite Htog.
    assert ((0 <? idx)%nat = negb (Nat.eqb idx 0)) as -> by (destruct idx; reflexivity).
    assert ((idx <? n - 1)%nat = negb (Nat.eqb idx (n - 1))) as -> by (cbn [length] in *; lia).
    assert (Nat.eqb (S idx) n = Nat.eqb idx (n - 1)) as -> by lia.
    destruct (N.eqb_spec (N.land tb 0x1F) tid) as [E1|E1]; cbn [negb].
    2:{ split; [|auto]. split; [discriminate|]. intros [[H _] _]. contradiction. }
    destruct (flag tb 0x80) eqn:F1, (Nat.eqb idx 0) eqn:I0; cbn [negb andb];
      try (split; [|auto]; split; [discriminate|]; intros [[_ [H _]] _]; discriminate);
    destruct (flag tb 0x40) eqn:F2, (Nat.eqb idx (n - 1)) eqn:I1; cbn [negb andb];
      try (split; [|auto]; split; [discriminate|]; intros [[_ [_ [H _]]] _]; discriminate);
    destruct (flag tb 0x20) eqn:F3, (Nat.odd idx) eqn:I2; cbn [negb eqb];
      try (split; [|auto]; split; [discriminate|]; intros [[_ [_ [_ H]]] _]; discriminate);
    (split; [rewrite IH1; tauto|intros H; apply IH2; intros f' Hf'; apply H; right; exact Hf']).
Qed.

Lemma check_tails_ok fs tid :
  (forall i f, nth_error fs i = Some f -> good_tail tid (length fs) i f) ->
  check_tails fs (length fs) 0 0 tid = Ok tt.
Proof. intros H. apply (proj1 (check_tails_spec tid fs 0)). exact H. Qed.

Lemma check_tails_bad fs tid :
  (forall f, In f fs -> f_bytes f <> []) ->
  ~ (forall i f, nth_error fs i = Some f -> good_tail tid (length fs) i f) ->
  check_tails fs (length fs) 0 0 tid = Err TransferError.
Proof.
  intros Hb Hn. destruct (check_tails_spec tid fs 0) as [H1 H2].
  destruct (H2 Hb) as [E|E]; [|exact E]. exfalso. apply Hn. apply H1. exact E.
Qed.

Lemma Forall2_len {A B} (R : A -> B -> Prop) l l' : Forall2 R l l' -> length l = length l'.
Proof. induction 1; cbn; congruence. Qed.

Lemma Forall2_nth_r {A B} (R : A -> B -> Prop) l l' : Forall2 R l l' ->
  forall i b, nth_error l' i = Some b -> exists a, nth_error l i = Some a /\ R a b.
Proof.
  induction 1 as [|a b l l' Hab Hs IH]; intros [|i] b0 Hf; try discriminate.
  - injection Hf as <-. exists a. auto.
  - apply IH. exact Hf.
Qed.

(** ** Frames that carry a body *)
Lemma carries_same id fd tid body fs fs' : carries id fd tid body fs ->
  Forall2 same_frame fs fs' -> carries id fd tid body fs'.
Proof.
  intros [H1 H2 H3] Hs.
  assert (length fs = length fs') as Hl by (eapply Forall2_len; exact Hs).
  split.
  - destruct Hs; [congruence|discriminate].
  - rewrite <- H2. f_equal. clear - Hs. induction Hs as [|a b l l' [_ [Hb _]] Hs IH]; [reflexivity|].
    cbn [map]. rewrite Hb, IH. reflexivity.
  - intros i f Hf.
    assert (exists g, nth_error fs i = Some g /\ same_frame g f) as (g & Hg & Ei & Eb & Ec).
    { destruct (Forall2_nth_r _ _ _ Hs _ _ Hf) as (g & Hg & E1 & E2 & E3). exists g. repeat split; auto. }
    destruct (H3 _ _ Hg) as (F1 & F2 & piece & F3 & F4). rewrite <- Hl, <- Ei, <- Ec, <- Eb.
    split; [exact F1|]. split; [exact F2|]. exists piece. auto.
Qed.

Lemma carries_tails id fd tid body fs : carries id fd tid body fs ->
  forall i f, nth_error fs i = Some f -> good_tail (tid mod 32) (length fs) i f.
Proof.
  intros [_ _ H] i f Hf. destruct (H _ _ Hf) as (_ & _ & piece & Hb & _).
  eexists. rewrite Hb, last_byte_snoc. split; [reflexivity|].
  destruct (tail_flags (Nat.eqb i 0) (Nat.eqb (S i) (length fs)) (Nat.odd i) tid) as (-> & -> & -> & ->).
  auto.
Qed.

Lemma carries_one_transfer id fd tid body fs : carries id fd tid body fs ->
  one_transfer (id, Some (tid mod 32)) fs.
Proof.
  intros Hc. pose proof (carries_tails _ _ _ _ _ Hc) as Ht. destruct Hc as [H0 _ H].
  split; [exact H0|]. intros i f Hf. destruct (H _ _ Hf) as (Hid & _).
  destruct (Ht _ _ Hf) as (tb & Hl & E1 & E2 & E3 & _).
  unfold transfer_key, start_of_transfer, end_of_transfer, frame_flag. rewrite Hl, Hid, E1, E2, E3. auto.
Qed.

Lemma carries_canfd id fd tid body fs : carries id fd tid body fs -> existsb f_canfd fs = fd.
Proof.
  intros [H0 _ H]. assert (forall f, In f fs -> f_canfd f = fd) as Hall.
  { intros f Hf. apply In_nth_error in Hf as [i Hf]. apply H in Hf. tauto. }
  destruct fs as [|f fs]; [congruence|]. cbn [existsb].
  rewrite (Hall f) by (left; reflexivity). destruct fd; [reflexivity|]. cbn [orb].
  destruct (existsb f_canfd fs) eqn:E; [|reflexivity].
  apply existsb_exists in E as (g & Hg & E). rewrite Hall in E by (right; exact Hg). discriminate.
Qed.

(** What reassembly computes from such frames. *)
Definition finish (types : datatypes) (id : N) (fd : bool) (tid : N) (multi : bool)
    (body : list N) (tsm tsr : option Z) : res rx :=
  let h := set_message_id fresh_header id in
  match types (h_dtid h) (h_service h) with
  | None => Err TransferError
  | Some dt =>
      payload <-
        (if multi then
           match body with
           | lo :: hi :: rest =>
               if crc16_from_bytes rest (dt_crc dt) =? lo + N.shiftl hi 8
               then Ok rest else Err TransferError
           | _ => Err IndexError
           end
         else Ok body) ;;
      let t := if h_service h && negb (h_request h) then dt_response dt else dt_fields dt in
      '(v, _) <- unpack t (negb fd) (bits_from_bytes payload) ;;
      Ok (Rx (Header (h_priority h) (h_service h) (h_request h) (h_source h)
                     (h_dest h) (dt_id dt) (h_discriminator h))
             (tid mod 32) dt v fd tsm tsr)
  end.

Lemma from_frames_tails types tid f0 fs :
  (forall i f, nth_error (f0 :: fs) i = Some f -> good_tail (tid mod 32) (length (f0 :: fs)) i f) ->
  from_frames types (f0 :: fs) =
  finish types (f_id f0) (existsb f_canfd (f0 :: fs)) tid
    (match fs with [] => false | _ => true end)
    (concat (map (fun f => removelast (f_bytes f)) (f0 :: fs)))
    (f_ts_monotonic f0) (f_ts_real f0).
Proof.
  intros Ht. unfold from_frames.
  destruct (Ht 0%nat f0 eq_refl) as (tb & Hl & E1 & _). rewrite Hl. cbn [bind].
  rewrite E1. rewrite check_tails_ok by exact Ht. cbn [bind].
  unfold finish. destruct fs; reflexivity.
Qed.

Lemma from_frames_carries types id fd tid body f0 fs : carries id fd tid body (f0 :: fs) ->
  from_frames types (f0 :: fs) =
  finish types id fd tid (match fs with [] => false | _ => true end) body
    (f_ts_monotonic f0) (f_ts_real f0).
Proof.
  intros Hc. rewrite (from_frames_tails _ tid) by apply (carries_tails _ _ _ _ _ Hc).
  rewrite (carries_canfd _ _ _ _ _ Hc).
  destruct Hc as [_ Hb Hf]. rewrite Hb.
  destruct (Hf 0%nat f0 eq_refl) as (-> & _). reflexivity.
Qed.

(** ** Round trip *)
Lemma payload_bytes_eq t fd v bs : pack t (negb fd) v = Ok bs ->
  payload_bytes t fd v = Ok (bytes_from_bits bs).
Proof.
  intros H. unfold payload_bytes. rewrite H. cbn [bind]. f_equal.
  change 7 with (2 ^ 3 - 1). rewrite land_mask. change (2 ^ 3) with 8.
  unfold bytes_from_bits.
  destruct (N.of_nat (length bs) mod 8 =? 0) eqn:E; cbn [negb]; [reflexivity|].
  assert (N.to_nat (N.of_nat (length bs) mod 8) = (length bs mod 8)%nat) as -> by lia.
  assert (length bs mod 8 <> 0)%nat as Hm by lia.
  apply Nat.eqb_neq in Hm. rewrite Hm. rewrite app_length, repeat_length.
  replace ((length bs + (8 - length bs mod 8)) mod 8)%nat with 0%nat by lia. reflexivity.
Qed.

Lemma zeros_bits n : bits_from_bytes (repeat 0 n) = repeat false (8 * n).
Proof.
  induction n as [|n IH]; [reflexivity|]. cbn [repeat].
  change (bits_from_bytes (0 :: repeat 0 n)) with (py_format_b 8 0 ++ bits_from_bytes (repeat 0 n)).
  rewrite IH. replace (8 * S n)%nat with (8 + 8 * n)%nat by lia. rewrite repeat_app. reflexivity.
Qed.

Theorem transfer_roundtrip types dt h tid v canfd :
  legal h -> h_dtid h = dt_id dt -> types (dt_id dt) (h_service h) = Some dt ->
  wf_type (transfer_type h dt) -> valid (transfer_type h dt) v ->
  exists t fs padded, make_tx h tid dt v canfd = Ok t /\ to_frames t = Ok (fs, padded) /\
    forall fs', Forall2 same_frame fs fs' ->
    exists r, from_frames types fs' = Ok r /\
      rx_header r = h /\ rx_tid r = tid mod 32 /\ rx_datatype r = dt /\ rx_canfd r = canfd /\
      content (transfer_type h dt) (rx_value r) = content (transfer_type h dt) v /\
      rx_ts_monotonic r = f_ts_monotonic (hd (Frame 0 [] false None None) fs') /\
      rx_ts_real r = f_ts_real (hd (Frame 0 [] false None None) fs').
Proof.
  intros Hleg Hid Hty Hwf Hv. set (ty := transfer_type h dt) in *.
  destruct (pack_length_bounds ty v (negb canfd) Hwf Hv) as (bs & Hp & _).
  unfold make_tx. fold (transfer_type h dt). fold ty.
  rewrite (payload_bytes_eq _ _ _ _ Hp). cbn [bind].
  rewrite <- Hid.
  assert (Header (h_priority h) (h_service h) (h_request h) (h_source h) (h_dest h) (h_dtid h)
            (h_discriminator h) = h) as -> by (destruct h; reflexivity).
  set (t := Tx h tid (bytes_from_bits bs) (dt_crc dt) canfd).
  pose proof (message_id_layout h Hleg) as Hm.
  destruct (to_frames_wf t (can_id h) Hm) as (fs & padded & Hto & (zeros & Hz & Hz16 & Hzf) & Hs & Hmul).
  exists t, fs, padded. split; [reflexivity|]. split; [exact Hto|].
  intros fs' Hsame.
  assert (exists v' rest, unpack ty (negb canfd) (bits_from_bytes padded) = Ok (v', rest) /\
            content ty v' = content ty v) as (v' & rest & Hun & Hcont).
  { rewrite Hz. cbn [tx_payload t]. rewrite bits_from_bytes_app.
    destruct canfd; cbn [negb] in *.
    - destruct (bytes_from_bits_spec bs) as (k & _ & ->). rewrite <- app_assoc.
      destruct (pack_unpack_suffix ty v (repeat false k ++ bits_from_bytes (repeat 0 zeros)) Hwf Hv)
        as (bs' & v' & Hp' & Hu & Hc). rewrite Hp in Hp'. injection Hp' as <-. eauto.
    - rewrite Hzf by reflexivity. cbn [repeat bits_from_bytes map concat]. rewrite app_nil_r.
      destruct (pack_unpack_bytes ty v true Hwf Hv) as (bs' & v' & rest & Hp' & Hu & Hc & _).
      rewrite Hp in Hp'. injection Hp' as <-. eauto. }
  assert (Forall (fun b => b < 256) padded) as Hbyte.
  { rewrite Hz. apply Forall_app. split; [apply bytes_from_bits_bytes|].
    apply Forall_forall. intros x Hx. apply repeat_spec in Hx. subst x. reflexivity. }
  assert (Hfin : forall multi body tsm tsr,
    (multi = false -> body = padded) ->
    (multi = true -> exists lo hi, body = lo :: hi :: padded /\ lo + 256 * hi = crc16_from_bytes padded (dt_crc dt)) ->
    finish types (can_id h) canfd tid multi body tsm tsr =
    Ok (Rx h (tid mod 32) dt v' canfd tsm tsr)).
  { intros multi body tsm tsr Hb1 Hb2. unfold finish. rewrite (decode_encode h Hleg).
    rewrite Hid, Hty.
    assert ((if multi then
             match body with
             | lo :: hi :: rest0 =>
                 if crc16_from_bytes rest0 (dt_crc dt) =? lo + N.shiftl hi 8
                 then Ok rest0 else Err TransferError
             | _ => Err IndexError
             end else Ok body) = Ok padded) as ->.
    { destruct multi.
      - destruct (Hb2 eq_refl) as (lo & hi & -> & E). rewrite <- E, N.shiftl_mul_pow2.
        replace (lo + 256 * hi =? lo + hi * 2 ^ 8) with true; [reflexivity|].
        symmetry. apply N.eqb_eq. change (2 ^ 8) with 256. lia.
      - rewrite Hb1 by reflexivity. reflexivity. }
    cbn [bind]. fold (transfer_type h dt). fold ty. rewrite Hun. cbn [bind].
    rewrite <- Hid. destruct h; reflexivity. }
  assert (exists f0 rest', fs' = f0 :: rest' /\
    from_frames types fs' = Ok (Rx h (tid mod 32) dt v' canfd (f_ts_monotonic f0) (f_ts_real f0)))
    as (f0 & rest' & -> & Hff).
  { assert (length fs = length fs') as Hlen by (eapply Forall2_len; exact Hsame).
    destruct (Nat.le_gt_cases (length (tx_payload t)) (capacity (tx_canfd t))) as [Hle|Hgt].
    - destruct (Hs Hle) as [Hl1 Hc]. apply (carries_same _ _ _ _ _ _ Hc) in Hsame.
      destruct fs' as [|f0 [|f1 fs']]; try (cbn in Hlen; lia).
      exists f0, []. split; [reflexivity|]. cbn [tx_canfd tx_tid t] in Hsame.
      rewrite (from_frames_carries _ _ _ _ _ _ _ Hsame). apply Hfin; [reflexivity|discriminate].
    - destruct (Hmul Hgt) as [Hl2 (lo & hi & Hcrc & _ & _ & Hc)].
      apply (carries_same _ _ _ _ _ _ Hc) in Hsame.
      destruct fs' as [|f0 [|f1 fs']]; try (cbn in Hlen; lia).
      exists f0, (f1 :: fs'). split; [reflexivity|]. cbn [tx_canfd tx_tid t] in Hsame.
      rewrite (from_frames_carries _ _ _ _ _ _ _ Hsame). apply Hfin; [discriminate|].
      intros _. exists lo, hi. auto. }
  eexists. split; [exact Hff|]. cbn. repeat split. exact Hcont.
Qed.

(** ** Corruption *)
Theorem crc_mismatch types dt h tid v canfd t fs padded fs' lo hi p :
  legal h -> h_dtid h = dt_id dt -> types (dt_id dt) (h_service h) = Some dt ->
  make_tx h tid dt v canfd = Ok t -> to_frames t = Ok (fs, padded) -> (2 <= length fs)%nat ->
  Forall2 same_envelope fs fs' -> frames_body fs' = lo :: hi :: p ->
  crc16_from_bytes p (dt_crc dt) <> lo + 256 * hi ->
  from_frames types fs' = Err TransferError.
Proof.
  intros Hleg Hid Hty Hmk Hto H2 Hs Hb Hne.
  unfold make_tx in Hmk. apply bind_ok in Hmk as (p0 & _ & Hmk). injection Hmk as <-.
  rewrite <- Hid in Hto.
  assert (Header (h_priority h) (h_service h) (h_request h) (h_source h) (h_dest h) (h_dtid h)
            (h_discriminator h) = h) as Eh by (destruct h; reflexivity). rewrite Eh in Hto.
  set (t := Tx h tid p0 (dt_crc dt) canfd) in Hto.
  destruct (to_frames_wf t (can_id h) (message_id_layout h Hleg)) as (fs0 & padded0 & Hto' & _ & Hs1 & Hmul).
  rewrite Hto in Hto'. injection Hto' as <- <-.
  assert (exists body, carries (can_id h) canfd tid body fs) as [body Hc].
  { destruct (Nat.le_gt_cases (length (tx_payload t)) (capacity (tx_canfd t))) as [Hle|Hgt].
    - destruct (Hs1 Hle) as [_ Hc]. eauto.
    - destruct (Hmul Hgt) as [_ (lo0 & hi0 & _ & _ & _ & Hc)]. eauto. }
  clear Hs1 Hmul Hto t.
  pose proof (Forall2_len _ _ _ Hs) as Hlen.
  destruct fs' as [|f0 [|f1 fs']]; try (cbn in Hlen; lia).
  rewrite (from_frames_tails _ tid).
  2:{ intros i f Hf. rewrite <- Hlen. destruct (Forall2_nth_r _ _ _ Hs _ _ Hf) as (g & Hg & _ & _ & El).
      destruct (carries_tails _ _ _ _ _ Hc _ _ Hg) as (tb & Htb & H). exists tb.
      rewrite <- El. auto. }
  destruct (Forall2_nth_r _ _ _ Hs 0%nat f0 eq_refl) as (g & Hg & Eid & _ & _). rewrite <- Eid.
  destruct Hc as [_ _ Hf]. destruct (Hf _ _ Hg) as (-> & _).
  unfold frames_body in Hb. rewrite Hb. unfold finish. rewrite (decode_encode h Hleg), Hid, Hty.
  replace (crc16_from_bytes p (dt_crc dt) =? lo + N.shiftl hi 8) with false; [reflexivity|].
  symmetry. apply N.eqb_neq. rewrite N.shiftl_mul_pow2. change (2 ^ 8) with 256. lia.
Qed.

Lemma sent_body h dt tid v canfd t fs padded lo hi p :
  legal h -> h_dtid h = dt_id dt -> 
  make_tx h tid dt v canfd = Ok t -> to_frames t = Ok (fs, padded) -> (2 <= length fs)%nat ->
  frames_body fs = lo :: hi :: p ->
  lo + 256 * hi = crc16_from_bytes p (dt_crc dt) /\ lo < 256 /\ hi < 256 /\ byte_string p.
Proof.
  intros Hleg Hid Hmk Hto H2 Hb.
  unfold make_tx in Hmk. apply bind_ok in Hmk as (p0 & Hp0 & Hmk). injection Hmk as <-.
  rewrite <- Hid in Hto.
  assert (Header (h_priority h) (h_service h) (h_request h) (h_source h) (h_dest h) (h_dtid h)
            (h_discriminator h) = h) as Eh by (destruct h; reflexivity). rewrite Eh in Hto.
  set (t := Tx h tid p0 (dt_crc dt) canfd) in Hto.
  destruct (to_frames_wf t (can_id h) (message_id_layout h Hleg)) as (fs0 & padded0 & Hto' & (z & Hz & _) & Hs1 & Hmul).
  rewrite Hto in Hto'. injection Hto' as <- <-.
  assert (byte_string padded) as Hbp.
  { unfold payload_bytes in Hp0. apply bind_ok in Hp0 as (b & _ & Hp0). injection Hp0 as Hp0.
    rewrite Hz. apply Forall_app. split.
    - cbn [tx_payload t]. rewrite <- Hp0. apply bytes_from_bits_bytes.
    - apply Forall_forall. intros x Hx. apply repeat_spec in Hx. subst x. reflexivity. }
  destruct (Nat.le_gt_cases (length (tx_payload t)) (capacity (tx_canfd t))) as [Hle|Hgt].
  - destruct (Hs1 Hle) as [E _]. lia.
  - destruct (Hmul Hgt) as [_ (lo0 & hi0 & Hcrc & Hl & Hh & [_ Hc _])].
    unfold frames_body in Hb. rewrite Hb in Hc. injection Hc as -> -> ->. auto.
Qed.

Theorem burst_noticed types dt h tid v canfd t fs padded fs' lo hi p p' :
  legal h -> h_dtid h = dt_id dt -> types (dt_id dt) (h_service h) = Some dt -> dt_crc dt < 2 ^ 16 ->
  make_tx h tid dt v canfd = Ok t -> to_frames t = Ok (fs, padded) -> (2 <= length fs)%nat ->
  Forall2 same_envelope fs fs' ->
  frames_body fs = lo :: hi :: p -> frames_body fs' = lo :: hi :: p' -> byte_string p' ->
  burst 16 (bit_string p) (bit_string p') ->
  from_frames types fs' = Err TransferError.
Proof.
  intros Hleg Hid Hty Hd Hmk Hto H2 Hs Hb Hb' Hp' Hburst.
  destruct (sent_body _ _ _ _ _ _ _ _ _ _ _ Hleg Hid Hmk Hto H2 Hb) as (Hcrc & _ & _ & Hp).
  eapply crc_mismatch; try eassumption. rewrite Hcrc.
  intros E. symmetry in E. revert E. apply crc16_burst; assumption.
Qed.

Theorem crc_bytes_noticed types dt h tid v canfd t fs padded fs' lo hi p lo' hi' :
  legal h -> h_dtid h = dt_id dt -> types (dt_id dt) (h_service h) = Some dt ->
  make_tx h tid dt v canfd = Ok t -> to_frames t = Ok (fs, padded) -> (2 <= length fs)%nat ->
  Forall2 same_envelope fs fs' ->
  frames_body fs = lo :: hi :: p -> frames_body fs' = lo' :: hi' :: p ->
  lo' < 256 -> hi' < 256 -> (lo', hi') <> (lo, hi) ->
  from_frames types fs' = Err TransferError.
Proof.
  intros Hleg Hid Hty Hmk Hto H2 Hs Hb Hb' Hl Hh Hne.
  destruct (sent_body _ _ _ _ _ _ _ _ _ _ _ Hleg Hid Hmk Hto H2 Hb) as (Hcrc & Hl0 & Hh0 & Hp).
  eapply crc_mismatch; try eassumption. rewrite <- Hcrc. intros E.
  assert (lo = lo') by lia. assert (hi = hi') by lia. congruence.
Qed.

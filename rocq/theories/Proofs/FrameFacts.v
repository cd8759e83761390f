From Verif.Base Require Import Prelude Bits.
From Verif.Model Require Import BitCodec Types Codec Crc MsgId Frames.
From Verif.Spec Require Import CodecSpec CrcSpec MsgIdSpec FrameSpec.
From Verif.Proofs Require Import BitCodecFacts CodecTop CrcFacts MsgIdFacts.
Local Open Scope N_scope.

(** ** Tail bytes *)
Lemma land_pow2_flag x n : N.land x (2 ^ n) = if flag x (2 ^ n) then 2 ^ n else 0.
Proof.
  unfold flag. destruct (N.land x (2 ^ n) =? 0) eqn:E; cbn [negb].
  - apply N.eqb_eq. exact E.
  - apply N.eqb_neq in E. apply N.bits_inj. intros i. rewrite N.land_spec, N.pow2_bits_eqb.
    destruct (N.eqb_spec n i) as [<-|Hne]; [|apply andb_false_r].
    rewrite andb_true_r. destruct (N.testbit x n) eqn:Et; [reflexivity|].
    exfalso. apply E. apply N.bits_inj. intros j. rewrite N.land_spec, N.bits_0, N.pow2_bits_eqb.
    destruct (N.eqb_spec n j) as [<-|]; [rewrite Et; reflexivity|apply andb_false_r].
Qed.

Lemma tail_flags s e t tid :
  flag (tail_byte s e t tid) 0x80 = s /\ flag (tail_byte s e t tid) 0x40 = e /\
  flag (tail_byte s e t tid) 0x20 = t /\ N.land (tail_byte s e t tid) 0x1F = tid mod 32.
Proof.
  unfold tail_byte. pose proof (N.mod_lt tid 32 ltac:(discriminate)) as H.
  set (m := tid mod 32) in *. clearbody m.
  rewrite (flag_div _ 7), (flag_div _ 6), (flag_div _ 5), (land_mask _ 5).
  destruct s, e, t; repeat split; lia.
Qed.

Lemma tail_byte_byte s e t tid : tail_byte s e t tid < 256.
Proof.
  unfold tail_byte. pose proof (N.mod_lt tid 32 ltac:(discriminate)).
  destruct s, e, t; lia.
Qed.

Lemma tail_make (s e : bool) p tid :
  N.lor (N.lor (N.lor (if s then 0x80 else 0) (if e then 0x40 else 0))
               (N.land (N.lxor p 0x20) 0x20)) (N.land tid 0x1F)
  = tail_byte s e (negb (flag p 0x20)) tid.
Proof.
  assert (N.land (N.lxor p 0x20) 0x20 = if flag p 0x20 then 0 else 0x20) as ->.
  { rewrite land_lxor_distr. change 0x20 with (2 ^ 5). rewrite land_pow2_flag.
    destruct (flag p (2 ^ 5)); reflexivity. }
  change 0x1F with (2 ^ 5 - 1). rewrite land_mask. unfold tail_byte. change (2 ^ 5) with 32.
  assert (forall k, N.lor (k * 32) (tid mod 32) = k * 32 + tid mod 32) as Hk.
  { intros k. change (k * 32) with (k * 2 ^ 5). rewrite <- N.shiftl_mul_pow2.
    rewrite lor_shift_add by (apply N.mod_lt; discriminate).
    rewrite N.shiftl_mul_pow2. reflexivity. }
  destruct s, e, (flag p 32); cbn [negb].
  - exact (Hk 6).
  - exact (Hk 7).
  - exact (Hk 4).
  - exact (Hk 5).
  - exact (Hk 2).
  - exact (Hk 3).
  - exact (Hk 0).
  - exact (Hk 1).
Qed.

(** ** The frame loop *)
Fixpoint build (id : N) (canfd : bool) (tid : N) (index : nat) (pieces : list (list N))
    : list frame :=
  match pieces with
  | [] => []
  | p :: ps =>
      Frame id (p ++ [tail_byte (Nat.eqb index 0)
                        (match ps with [] => true | _ => false end) (Nat.odd index) tid])
        canfd None None :: build id canfd tid (S index) ps
  end.

Definition pieces_of (n : nat) (body : list N) : list (list N) :=
  match body with [] => [[]] | _ => chunks n body end.

Lemma frame_loop_build fm id canfd tid : (1 < fm)%nat -> forall fuel body tail index,
  (length body < fuel)%nat -> flag tail 0x20 = Nat.even index ->
  frame_loop fuel fm id canfd tid tail index body =
  Ok (build id canfd tid index (pieces_of (fm - 1) body)).
Proof.
  intros Hfm. induction fuel as [|fuel IH]; intros body tail index Hl Ht; [lia|].
  cbn [frame_loop]. rewrite tail_make, Ht, Nat.negb_even.
  destruct body as [|b body].
  - rewrite firstn_nil, skipn_nil. cbn [length]. replace (0 <=? fm - 1)%nat with true by lia.
    reflexivity.
  - unfold pieces_of. rewrite chunks_cons by (try discriminate; lia).
    destruct (skipn (fm - 1) (b :: body)) as [|r rest] eqn:E.
    + cbn [build]. rewrite chunks_nil.
      replace (length (b :: body) <=? fm - 1)%nat with true; [reflexivity|].
      apply (f_equal (@length N)) in E. rewrite skipn_length in E. cbn [length] in *. lia.
    + assert (length (skipn (fm - 1) (b :: body)) = S (length rest)) as El by (rewrite E; reflexivity).
      rewrite skipn_length in El.
      rewrite IH.
      * cbn [bind]. unfold pieces_of. cbn [build]. f_equal. f_equal.
        rewrite chunks_cons by (try discriminate; lia).
        replace (length (b :: body) <=? fm - 1)%nat with false by lia. reflexivity.
      * cbn [length] in *. lia.
      * destruct (tail_flags (Nat.eqb index 0) (length (b :: body) <=? fm - 1)%nat (Nat.odd index) tid)
          as (_ & _ & -> & _). rewrite Nat.even_succ. reflexivity.
Qed.

Lemma build_length id fd tid ps : forall i, length (build id fd tid i ps) = length ps.
Proof. induction ps as [|p ps IH]; intros i; [reflexivity|]. cbn. f_equal. apply IH. Qed.

Lemma build_nth id fd tid ps : forall i j f, nth_error (build id fd tid i ps) j = Some f ->
  exists p, nth_error ps j = Some p /\
    f = Frame id (p ++ [tail_byte (Nat.eqb (i + j) 0) (Nat.eqb (S j) (length ps))
                          (Nat.odd (i + j)) tid]) fd None None.
Proof.
  induction ps as [|p ps IH]; intros i [|j] f; cbn [build nth_error]; try discriminate.
  - intros [= <-]. exists p. split; [reflexivity|]. rewrite Nat.add_0_r.
    destruct ps; reflexivity.
  - intros H. apply IH in H as (q & Hq & ->). exists q. split; [exact Hq|].
    replace (S i + j)%nat with (i + S j)%nat by lia. cbn [length]. reflexivity.
Qed.

Lemma removelast_snoc {A} (l : list A) a : removelast (l ++ [a]) = l.
Proof. apply removelast_last. Qed.

Lemma last_byte_snoc l a : last_byte (l ++ [a]) = Some a.
Proof.
  destruct l as [|x l]; [reflexivity|]. cbn [app last_byte]. f_equal. apply last_last.
Qed.

Lemma build_data id fd tid ps : forall i,
  map (fun f => removelast (f_bytes f)) (build id fd tid i ps) = ps.
Proof.
  induction ps as [|p ps IH]; intros i; [reflexivity|].
  cbn [build map f_bytes]. rewrite removelast_snoc, IH. reflexivity.
Qed.

Lemma pieces_concat n body : (0 < n)%nat -> concat (pieces_of n body) = body.
Proof.
  intros Hn. destruct body; [reflexivity|]. apply concat_chunks. exact Hn.
Qed.

Lemma chunked_nth {A} n (ls : list (list A)) i l : chunked n ls -> nth_error ls i = Some l ->
  (1 <= length l <= n)%nat /\ ((S i < length ls)%nat -> length l = n) \/ n = 0%nat.
Proof.
  revert i. induction ls as [|a ls IH]; intros [|i] H E; try discriminate.
  - injection E as ->. destruct ls; cbn in H.
    + left. split; [exact H|]. cbn. lia.
    + destruct H as [H _]. destruct (Nat.eq_dec n 0); [right; assumption|].
      left. split; [lia|auto].
  - cbn [nth_error] in E. destruct ls as [|b ls]; [destruct i; discriminate|].
    destruct H as [_ H]. destruct (IH _ H E) as [[H1 H2]|H0]; [left|right; exact H0].
    split; [exact H1|]. cbn [length] in *. intros Hs. apply H2. lia.
Qed.

Lemma chunks_nonempty {A} n (l : list A) : (0 < n)%nat -> l <> [] -> chunks n l <> [].
Proof. intros Hn Hl. rewrite chunks_cons by assumption. discriminate. Qed.

Lemma build_carries id fd tid body :
  carries id fd tid body (build id fd tid 0 (pieces_of (capacity fd) body)).
Proof.
  assert (0 < capacity fd)%nat as Hc by (destruct fd; cbn; lia).
  split.
  - destruct body as [|b body]; [discriminate|]. unfold pieces_of.
    rewrite chunks_cons by (try discriminate; assumption). discriminate.
  - rewrite build_data. apply pieces_concat. exact Hc.
  - intros i f H. apply build_nth in H as (p & Hp & ->). cbn [f_id f_canfd f_bytes].
    split; [reflexivity|]. split; [reflexivity|]. exists p.
    rewrite build_length. rewrite Nat.add_0_l. split; [reflexivity|].
    destruct body as [|b body].
    + cbn [pieces_of] in *. destruct i as [|[|]]; try discriminate. injection Hp as <-.
      cbn [length]. repeat split; lia.
    + unfold pieces_of in *.
      destruct (chunked_nth _ _ _ _ (chunked_chunks _ _ Hc) Hp) as [[H1 H2]|H0]; [|lia].
      split; [lia|]. split; [exact H2|]. intros _ ->. cbn in H1. lia.
Qed.

(** ** Splitting *)
Definition body_of (t : tx) : list N :=
  let payload := pad_payload (tx_canfd t) (tx_payload t) in
  if (capacity (tx_canfd t) <? length payload)%nat then
    [N.land (crc16_from_bytes payload (tx_crc t)) 0xFF;
     N.shiftr (crc16_from_bytes payload (tx_crc t)) 8] ++ payload
  else payload.

Lemma to_frames_eq t id : message_id (tx_header t) = Ok id ->
  to_frames t = Ok (build id (tx_canfd t) (tx_tid t) 0
                      (pieces_of (capacity (tx_canfd t)) (body_of t)),
                    pad_payload (tx_canfd t) (tx_payload t)).
Proof.
  intros Hid. unfold to_frames, body_of. rewrite Hid. cbn [bind].
  assert ((if tx_canfd t then 64 else 8) - 1 = capacity (tx_canfd t))%nat as Hc
    by (destruct (tx_canfd t); reflexivity).
  rewrite Hc.
  rewrite frame_loop_build; [|destruct (tx_canfd t); lia|lia|reflexivity].
  rewrite Hc. reflexivity.
Qed.

Lemma to_frames_error t e : message_id (tx_header t) = Err e -> to_frames t = Err e.
Proof. intros H. unfold to_frames. rewrite H. reflexivity. Qed.

Lemma roundup_ge n : (n <= 64)%nat -> (n <= datalength_roundup n <= 64)%nat.
Proof. intros H. unfold datalength_roundup. dif; lia. Qed.

Lemma roundup_legal n : In (datalength_roundup n) fd_lengths.
Proof.
  unfold datalength_roundup.
  destruct (n <=? 8)%nat eqn:E; [|dif; cbn; tauto].
  assert (n = 0 \/ n = 1 \/ n = 2 \/ n = 3 \/ n = 4 \/ n = 5 \/ n = 6 \/ n = 7 \/ n = 8)%nat as H by lia.
  cbn. intuition.
Qed.

(** The payload is kept and only zeros are appended. *)
Lemma pad_payload_spec fd p : exists n, pad_payload fd p = p ++ repeat 0 n /\
  (fd = false -> n = 0%nat) /\ (n < 16)%nat.
Proof.
  unfold pad_payload. destruct (fd && _) eqn:E.
  - destruct fd; [|discriminate]. eexists. split; [reflexivity|]. split; [discriminate|].
    set (m := ((if (64 <? length p + 1)%nat then length p + 1 + 2 else length p + 1) mod (64 - 1))%nat).
    assert (m < 63)%nat as Hm by (apply Nat.mod_upper_bound; lia). clearbody m.
    unfold datalength_roundup. dif; lia.
  - exists 0%nat. cbn [repeat]. rewrite app_nil_r. split; [reflexivity|]. split; [reflexivity|lia].
Qed.

(** One frame exactly when the original payload fits. *)
Lemma pad_fits fd p :
  (length (pad_payload fd p) <= capacity fd)%nat <-> (length p <= capacity fd)%nat.
Proof.
  unfold pad_payload. destruct fd; cbn [andb capacity]; [|reflexivity].
  destruct (7 <? length p)%nat eqn:E; [|reflexivity].
  change (64 - 1)%nat with 63%nat.
  rewrite app_length, repeat_length.
  destruct (64 <? length p + 1)%nat eqn:E2.
  - split; [|lia]. intros H. lia.
  - set (m := ((length p + 1) mod 63)%nat).
    assert (length p <= 63)%nat as Hp by lia.
    destruct (Nat.eq_dec (length p) 63) as [H63|H63].
    + assert (m = 1)%nat as -> by (unfold m; rewrite H63; reflexivity). cbn. lia.
    + destruct (Nat.eq_dec (length p) 62) as [H62|H62].
      * assert (m = 0)%nat as -> by (unfold m; rewrite H62; reflexivity). cbn. lia.
      * assert (m = length p + 1)%nat as -> by (unfold m; apply Nat.mod_small; lia).
        pose proof (roundup_ge (length p + 1) ltac:(lia)). lia.
Qed.

Lemma body_single t : (length (tx_payload t) <= capacity (tx_canfd t))%nat ->
  body_of t = pad_payload (tx_canfd t) (tx_payload t).
Proof.
  intros H. apply pad_fits in H. unfold body_of.
  replace (capacity (tx_canfd t) <? _)%nat with false by lia. reflexivity.
Qed.

Lemma body_multi t : (capacity (tx_canfd t) < length (tx_payload t))%nat ->
  body_of t =
    let p := pad_payload (tx_canfd t) (tx_payload t) in
    let c := crc16_from_bytes p (tx_crc t) in
    [c mod 256; c / 256] ++ p.
Proof.
  intros H. unfold body_of.
  assert (~ (length (pad_payload (tx_canfd t) (tx_payload t)) <= capacity (tx_canfd t))%nat) as Hn
    by (rewrite pad_fits; lia).
  replace (capacity (tx_canfd t) <? _)%nat with true by lia.
  change 0xFF with (2 ^ 8 - 1). rewrite land_mask, N.shiftr_div_pow2. reflexivity.
Qed.

Lemma chunks_count {A} n (l : list A) : (0 < n)%nat ->
  ((length (chunks n l) <= 1)%nat <-> (length l <= n)%nat).
Proof.
  intros Hn. destruct l as [|a l]; [cbn; lia|].
  rewrite chunks_cons by (try discriminate; assumption). cbn [length].
  destruct (skipn n (a :: l)) as [|b r] eqn:E.
  - rewrite chunks_nil. cbn [length]. apply (f_equal (@length A)) in E.
    rewrite skipn_length in E. cbn [length] in E. lia.
  - rewrite chunks_cons by (try discriminate; assumption). cbn [length].
    apply (f_equal (@length A)) in E. rewrite skipn_length in E. cbn [length] in E. lia.
Qed.

Lemma pieces_count n body : (0 < n)%nat ->
  (length (pieces_of n body) = 1%nat <-> (length body <= n)%nat).
Proof.
  intros Hn. destruct body as [|b body]; [cbn; lia|]. unfold pieces_of.
  rewrite <- (chunks_count n (b :: body)) by exact Hn.
  assert (chunks n (b :: body) <> []) as H by (apply chunks_nonempty; [exact Hn|discriminate]).
  destruct (chunks n (b :: body)); [congruence|]. cbn [length]. lia.
Qed.

Theorem to_frames_wf t id : message_id (tx_header t) = Ok id ->
  exists fs padded, to_frames t = Ok (fs, padded) /\
    (exists zeros, padded = tx_payload t ++ repeat 0 zeros /\ (zeros < 16)%nat /\
       (tx_canfd t = false -> zeros = 0%nat)) /\
    ((length (tx_payload t) <= capacity (tx_canfd t))%nat ->
       length fs = 1%nat /\ carries id (tx_canfd t) (tx_tid t) padded fs) /\
    ((capacity (tx_canfd t) < length (tx_payload t))%nat ->
       (2 <= length fs)%nat /\
       exists lo hi, lo + 256 * hi = crc16_from_bytes padded (tx_crc t) /\ lo < 256 /\ hi < 256 /\
         carries id (tx_canfd t) (tx_tid t) (lo :: hi :: padded) fs).
Proof.
  intros Hid. rewrite (to_frames_eq _ _ Hid). eexists. eexists. split; [reflexivity|].
  destruct (pad_payload_spec (tx_canfd t) (tx_payload t)) as (n & Hn & Hfd & Hlt).
  assert (0 < capacity (tx_canfd t))%nat as Hc by (destruct (tx_canfd t); cbn; lia).
  split; [exists n; auto|]. split; intros H.
  - rewrite build_length, (pieces_count _ _ Hc), body_single by exact H.
    split; [apply pad_fits; exact H|apply build_carries].
  - rewrite build_length. pose proof (pieces_count (capacity (tx_canfd t)) (body_of t) Hc) as Hcnt.
    rewrite body_multi in Hcnt |- * by exact H. cbv zeta in *.
    set (p := pad_payload _ _) in *. set (c := crc16_from_bytes p (tx_crc t)) in *.
    assert (length (tx_payload t) <= length p)%nat as Hp
      by (rewrite Hn, app_length; lia).
    split.
    + assert (pieces_of (capacity (tx_canfd t)) ([c mod 256; c / 256] ++ p) <> []) as Hne.
      { unfold pieces_of. cbn [app]. apply chunks_nonempty; [exact Hc|discriminate]. }
      destruct (pieces_of (capacity (tx_canfd t)) ([c mod 256; c / 256] ++ p)) as [|x [|y l]];
        [congruence| |cbn; lia].
      exfalso. pose proof (proj1 Hcnt eq_refl) as Hx. rewrite app_length in Hx. lia.
    + exists (c mod 256), (c / 256).
      assert (c < 2 ^ 16) as Hcr by apply crc16_range.
      split; [lia|]. split; [lia|]. split; [lia|]. apply build_carries.
Qed.

(** ** Legal CAN FD lengths *)
Lemma build_lengths id fd tid ps f : In f (build id fd tid 0 ps) ->
  exists p, In p ps /\ length (f_bytes f) = S (length p).
Proof.
  intros H. apply In_nth_error in H as [i H]. apply build_nth in H as (p & Hp & ->).
  exists p. split; [eapply nth_error_In; exact Hp|]. cbn [f_bytes]. rewrite app_length. cbn. lia.
Qed.

Lemma build_lengths_back id fd tid ps p : forall i, In p ps ->
  exists f, In f (build id fd tid i ps) /\ length (f_bytes f) = S (length p).
Proof.
  induction ps as [|q ps IH]; intros i []; cbn [build].
  - subst q. eexists. split; [left; reflexivity|]. cbn [f_bytes]. rewrite app_length. cbn. lia.
  - destruct (IH (S i) H) as (f & Hf & Hl). exists f. split; [right; exact Hf|exact Hl].
Qed.

(** Lengths of chunks. *)
Lemma chunk_lengths {A} n (l : list A) p : (0 < n)%nat -> In p (chunks n l) ->
  length p = n \/ (length p = length l mod n /\ (0 < length l mod n)%nat)%nat.
Proof.
  intros Hn. induction l as [|l Hl IH] using (chunks_ind n Hn); [intros []|].
  rewrite chunks_cons by assumption. intros [<-|H].
  - rewrite firstn_length. destruct (Nat.le_gt_cases n (length l)); [left; lia|].
    right. rewrite Nat.mod_small by lia. destruct l; [congruence|]. cbn [length] in *. lia.
  - destruct (IH H) as [E|E]; [left; exact E|]. right.
    assert (n <= length l)%nat as Hle.
    { destruct (Nat.le_gt_cases n (length l)); [assumption|].
      rewrite skipn_all2 in H by lia. destruct H. }
    rewrite skipn_length in E.
    replace (length l) with (length l - n + 1 * n)%nat by lia.
    rewrite Nat.mod_add by lia. exact E.
Qed.

Lemma chunk_last {A} n (l : list A) : (0 < n)%nat -> l <> [] -> (0 < length l mod n)%nat ->
  exists p, In p (chunks n l) /\ length p = (length l mod n)%nat.
Proof.
  intros Hn. induction l as [|l Hl IH] using (chunks_ind n Hn); [congruence|].
  intros _ Hm. rewrite chunks_cons by assumption.
  destruct (Nat.le_gt_cases n (length l)) as [Hle|Hlt].
  - assert (length (skipn n l) mod n = length l mod n)%nat as E.
    { rewrite skipn_length. replace (length l) with (length l - n + 1 * n)%nat at 2 by lia.
      rewrite Nat.mod_add by lia. reflexivity. }
    rewrite <- E in Hm |- *. destruct IH as (p & Hp & Hlp); [|exact Hm|].
    + intros E0. rewrite E0 in Hm. cbn [length] in Hm. rewrite Nat.mod_0_l in Hm by lia. lia.
    + exists p. split; [right; exact Hp|exact Hlp].
  - exists (firstn n l). split; [left; reflexivity|]. rewrite firstn_length.
    rewrite Nat.mod_small by lia. lia.
Qed.

(** Payload lengths for which the last frame has 63 bytes. *)
Definition bad_length (n : nat) : Prop := (n = 62 \/ (123 <= n /\ n mod 63 = 60))%nat.

Lemma pad_length p : (7 < length p)%nat ->
  length (pad_payload true p) =
  (length p + (datalength_roundup ((if 64 <=? length p then length p + 3 else length p + 1) mod 63) -
     (if 64 <=? length p then length p + 3 else length p + 1) mod 63))%nat.
Proof.
  intros H. unfold pad_payload. cbn [andb]. replace (7 <? length p)%nat with true by lia.
  rewrite app_length, repeat_length. change (64 - 1)%nat with 63%nat.
  replace (64 <? length p + 1)%nat with (64 <=? length p)%nat by lia.
  destruct (64 <=? length p)%nat; [|reflexivity].
  replace (length p + 1 + 2)%nat with (length p + 3)%nat by lia. reflexivity.
Qed.

Lemma legal_63 : ~ In 63%nat fd_lengths.
Proof. cbn. lia. Qed.

(** Length of the data of the last frame, tail byte included. *)
Lemma fd_last_length t : tx_canfd t = true ->
  (forall p, In p (pieces_of 63 (body_of t)) -> In (S (length p)) fd_lengths) <->
  ~ bad_length (length (tx_payload t)).
Proof.
  intros Hfd. set (n := length (tx_payload t)).
  assert (Hcap : capacity (tx_canfd t) = 63%nat) by (rewrite Hfd; reflexivity).
  destruct (Nat.le_gt_cases n 63) as [Hn|Hn].
  - (* single frame *)
    assert (pieces_of 63 (body_of t) = [pad_payload true (tx_payload t)]) as ->.
    { rewrite body_single by (rewrite Hcap; exact Hn). rewrite Hfd.
      destruct (pad_payload true (tx_payload t)) as [|b l] eqn:E; [reflexivity|].
      unfold pieces_of. rewrite chunks_cons by (try discriminate; lia).
      assert (length (b :: l) <= 63)%nat as Hl.
      { rewrite <- E. apply (pad_fits true). exact Hn. }
      rewrite firstn_all2 by exact Hl. rewrite skipn_all2 by exact Hl. reflexivity. }
    assert (In (S (length (pad_payload true (tx_payload t)))) fd_lengths <-> n <> 62%nat) as Hiff.
    { destruct (Nat.le_gt_cases n 7) as [H7|H7].
      - assert (pad_payload true (tx_payload t) = tx_payload t) as ->.
        { unfold pad_payload. cbn [andb]. fold n. replace (7 <? n)%nat with false by lia. reflexivity. }
        fold n. split; [lia|]. intros _.
        assert (n = 0 \/ n = 1 \/ n = 2 \/ n = 3 \/ n = 4 \/ n = 5 \/ n = 6 \/ n = 7)%nat as H by lia.
        repeat (destruct H as [H|H]); try (rewrite H; cbn; tauto).
      - rewrite pad_length by exact H7. fold n.
        replace (64 <=? n)%nat with false by lia.
        destruct (Nat.eq_dec n 62) as [->|H62]; [cbn; lia|].
        destruct (Nat.eq_dec n 63) as [->|H63]; [cbn; lia|].
        rewrite Nat.mod_small by lia. split; [intros _; exact H62|]. intros _.
        pose proof (roundup_ge (n + 1) ltac:(lia)) as Hr.
        replace (S (n + (datalength_roundup (n + 1) - (n + 1)))) with (datalength_roundup (n + 1)) by lia.
        apply roundup_legal. }
    unfold bad_length. split.
    + intros H [Hb|[Hb _]]; [|lia]. apply Hiff; [|exact Hb]. apply H. left. reflexivity.
    + intros H p [<-|[]]. apply Hiff. intros E. apply H. left. exact E.
  - (* several frames *)
    rewrite body_multi by (rewrite Hcap; exact Hn). rewrite Hfd. cbv zeta.
    set (p := pad_payload true (tx_payload t)).
    set (c := crc16_from_bytes p (tx_crc t)).
    assert (length p = n + (datalength_roundup ((n + 3) mod 63) - (n + 3) mod 63))%nat as Hp.
    { unfold p. rewrite pad_length by (fold n; lia). fold n. replace (64 <=? n)%nat with true by lia.
      reflexivity. }
    set (m := ((n + 3) mod 63)%nat) in *.
    assert (m < 63)%nat as Hm by (apply Nat.mod_upper_bound; lia).
    assert (n + 3 = 63 * ((n + 3) / 63) + m)%nat as Hdiv by (apply Nat.div_mod; lia).
    assert (bad_length n <-> m = 0%nat) as Hbad.
    { unfold bad_length. split.
      - intros [H|[H1 H2]]; [lia|]. unfold m.
        pose proof (Nat.div_mod n 63 ltac:(lia)) as Hd. rewrite H2 in Hd.
        replace (n + 3)%nat with ((n / 63 + 1) * 63)%nat by lia. apply Nat.mod_mul. lia.
      - intros H. rewrite H in Hdiv. right.
        set (q := ((n + 3) / 63)%nat) in *. assert (2 <= q)%nat as Hq by lia.
        split; [lia|]. replace n with (60 + (q - 1) * 63)%nat by lia. rewrite Nat.mod_add by lia.
        reflexivity. }
    assert (pieces_of 63 ([c mod 256; c / 256] ++ p) = chunks 63 ([c mod 256; c / 256] ++ p)) as -> by reflexivity.
    set (body := [c mod 256; c / 256] ++ p).
    assert (length body = 2 + length p)%nat as Hb by reflexivity.
    rewrite Hbad. split.
    + intros H Hm0.
      assert (length body mod 63 = 62)%nat as Hbm.
      { rewrite Hb, Hp, Hm0. cbn [datalength_roundup Nat.leb Nat.sub]. rewrite Hm0 in Hdiv.
        set (q := ((n + 3) / 63)%nat) in *.
        replace (2 + (n + 0))%nat with (62 + (q - 1) * 63)%nat by lia.
        rewrite Nat.mod_add by lia. reflexivity. }
      destruct (chunk_last 63 body) as (x & Hx & Hlx); [lia|discriminate|lia|].
      apply H in Hx. rewrite Hlx, Hbm in Hx. apply legal_63. exact Hx.
    + intros Hm0 x Hx.
      assert (length body mod 63 = (datalength_roundup m - 1) mod 63)%nat as Hbm.
      { rewrite Hb, Hp. set (q := ((n + 3) / 63)%nat) in *.
        assert (m <= datalength_roundup m)%nat as Hr by (apply roundup_ge; lia).
        replace (2 + (n + (datalength_roundup m - m)))%nat
          with ((datalength_roundup m - 1) + q * 63)%nat by lia.
        apply Nat.mod_add. lia. }
      pose proof (roundup_ge m ltac:(lia)) as Hr.
      destruct (chunk_lengths 63 body x ltac:(lia) Hx) as [E|[E H0]].
      * rewrite E. cbn. tauto.
      * rewrite E, Hbm. rewrite Hbm in H0.
        destruct (Nat.eq_dec (datalength_roundup m) 64) as [E64|E64].
        -- rewrite E64 in *. change ((64 - 1) mod 63)%nat with 0%nat in H0. lia.
        -- rewrite Nat.mod_small by lia.
           replace (S (datalength_roundup m - 1)) with (datalength_roundup m) by lia.
           apply roundup_legal.
Qed.

Theorem fd_legal_lengths t id fs padded :
  tx_canfd t = true -> message_id (tx_header t) = Ok id -> to_frames t = Ok (fs, padded) ->
  (Forall (fun f => In (length (f_bytes f)) fd_lengths) fs <-> ~ bad_length (length (tx_payload t))).
Proof.
  intros Hfd Hid H. rewrite (to_frames_eq _ _ Hid) in H. injection H as <- <-.
  rewrite <- (fd_last_length t Hfd). rewrite Hfd. cbn [capacity].
  rewrite Forall_forall. split.
  - intros H p Hp. destruct (build_lengths_back id true (tx_tid t) _ p 0 Hp) as (f & Hf & Hl).
    rewrite <- Hl. apply H. exact Hf.
  - intros H f Hf. apply build_lengths in Hf as (p & Hp & ->). apply H. exact Hp.
Qed.

(** ** Sending twice *)
Theorem to_frames_again t id fs padded :
  message_id (tx_header t) = Ok id -> to_frames t = Ok (fs, padded) ->
  to_frames (Tx (tx_header t) (tx_tid t) padded (tx_crc t) (tx_canfd t)) = Ok (fs, padded).
Proof.
  intros Hid H. rewrite (to_frames_eq _ _ Hid) in H. injection H as <- <-.
  assert (pad_payload (tx_canfd t) (pad_payload (tx_canfd t) (tx_payload t)) =
          pad_payload (tx_canfd t) (tx_payload t)) as Hpp.
  { set (p := tx_payload t). destruct (tx_canfd t); [|reflexivity].
    destruct (Nat.le_gt_cases (length p) 7) as [H7|H7].
    { unfold pad_payload. cbn [andb]. replace (7 <? length p)%nat with false by lia.
      replace (7 <? length p)%nat with false by lia. reflexivity. }
    pose proof (pad_length p H7) as Hl.
    set (q := pad_payload true p) in *.
    assert (7 < length q)%nat as H7q by lia.
    pose proof (pad_length q H7q) as Hq.
    assert (length (pad_payload true q) = length q) as E.
    { set (n := length p) in *.
      assert (forall r, In r fd_lengths -> datalength_roundup (r mod 63) - r mod 63 = 0)%nat as Hz.
      { intros r Hr. cbn in Hr. repeat (destruct Hr as [<-|Hr]); try reflexivity. destruct Hr. }
      destruct (64 <=? n)%nat eqn:E64.
      - assert (64 <=? length q = true)%nat as E64q by lia. rewrite E64q in Hq.
        set (m := ((n + 3) mod 63)%nat) in *.
        assert (m < 63)%nat as Hm by (apply Nat.mod_upper_bound; lia).
        pose proof (roundup_ge m ltac:(lia)) as Hr.
        pose proof (Nat.div_mod (n + 3) 63 ltac:(lia)) as Hd. fold m in Hd.
        assert ((length q + 3) mod 63 = datalength_roundup m mod 63)%nat as Hqm.
        { rewrite Hl.
          replace (n + (datalength_roundup m - m) + 3)%nat
            with (datalength_roundup m + ((n + 3) / 63) * 63)%nat by lia.
          apply Nat.mod_add. lia. }
        rewrite Hqm in Hq. rewrite Hq, (Hz _ (roundup_legal m)). lia.
      - assert (length q <= 63)%nat as Hq63.
        { unfold q. apply (pad_fits true). cbn. lia. }
        replace (64 <=? length q)%nat with false in Hq by lia. rewrite Hq.
        destruct (Nat.eq_dec n 63) as [->|H63].
        { rewrite Hl. reflexivity. }
        destruct (Nat.eq_dec n 62) as [->|H62].
        { rewrite Hl. reflexivity. }
        rewrite Nat.mod_small in Hl by lia.
        pose proof (roundup_ge (n + 1) ltac:(lia)) as Hr.
        assert (length q + 1 = datalength_roundup (n + 1))%nat as -> by lia.
        rewrite (Hz _ (roundup_legal (n + 1))). lia. }
    destruct (pad_payload_spec true q) as (k & Hk & _). rewrite Hk in E |- *.
    rewrite app_length, repeat_length in E. assert (k = 0)%nat as -> by lia.
    cbn [repeat]. apply app_nil_r. }
  rewrite (to_frames_eq _ id) by exact Hid. cbn [tx_canfd tx_tid tx_payload].
  unfold body_of. cbn [tx_canfd tx_payload tx_crc]. rewrite Hpp. reflexivity.
Qed.

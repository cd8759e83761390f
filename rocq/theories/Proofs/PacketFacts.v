(** Facts of the drivers' frame codecs. *)
From Verif.Base Require Import Prelude Pack.
From Verif.Model Require Import Crc CanFrame Packets.
From Verif.Spec Require Import CrcSpec PacketSpec.
From Verif.Proofs Require Import CrcFacts LogFacts.
Local Open Scope N_scope.

(** Innermost conditions first. *)
Ltac ifs := repeat match goal with |- context [if ?b then _ else _] =>
  lazymatch b with context [if _ then _ else _] => fail | _ => destruct b eqn:? end end.

(** Lengths and their codes. *)
Lemma dlc_inverse d : d <= 15 -> datalength_to_dlc (dlc_to_datalength d) = d.
Proof. intros H. unfold datalength_to_dlc, dlc_to_datalength. ifs; lia. Qed.

Lemma dlc_values : map dlc_to_datalength [0; 1; 2; 3; 4; 5; 6; 7; 8; 9; 10; 11; 12; 13; 14; 15] = legal_lengths.
Proof. reflexivity. Qed.

Lemma dlc_smallest l : l <= 64 ->
  datalength_to_dlc l <= 15 /\ l <= dlc_to_datalength (datalength_to_dlc l) /\
  In (dlc_to_datalength (datalength_to_dlc l)) legal_lengths /\
  forall m, In m legal_lengths -> l <= m -> dlc_to_datalength (datalength_to_dlc l) <= m.
Proof.
  intros H.
  assert (B : datalength_to_dlc l <= 15) by (unfold datalength_to_dlc; dif; lia).
  split; [exact B|]. split; [unfold datalength_to_dlc, dlc_to_datalength; ifs; lia|]. split.
  - rewrite <- dlc_values. apply in_map. set (d := datalength_to_dlc l) in *. clearbody d.
    assert (D : In (N.to_nat d) (seq 0 16)) by (apply in_seq; lia).
    replace d with (N.of_nat (N.to_nat d)) by lia.
    change [0; 1; 2; 3; 4; 5; 6; 7; 8; 9; 10; 11; 12; 13; 14; 15] with (map N.of_nat (seq 0 16)).
    apply in_map. exact D.
  - intros m M L. unfold legal_lengths in M. cbn [In] in M.
    repeat (destruct M as [M|M]; [subst m; unfold datalength_to_dlc, dlc_to_datalength; ifs; lia|]). contradiction.
Qed.

Lemma dlc_exact l : In l legal_lengths -> dlc_to_datalength (datalength_to_dlc l) = l.
Proof.
  intros H. rewrite <- dlc_values in H. apply in_map_iff in H as (d & <- & D).
  rewrite dlc_inverse; [reflexivity|]. cbn [In] in D.
  repeat (destruct D as [D|D]; [subst d; lia|]). contradiction.
Qed.

(** Parts. *)
Lemma part_at a x b n i : length a = i -> length x = n -> part i n (a ++ x ++ b) = x.
Proof.
  intros <- <-. unfold part. rewrite skipn_app_at by reflexivity. apply firstn_app_at. reflexivity.
Qed.

(** Multicast packets. *)
Lemma flagged_back f : c_id f < 2 ^ 29 ->
  flagged_id f < 2 ^ 32 /\ plain_id (flagged_id f) = c_id f /\ ext_flag (flagged_id f) = c_ext f.
Proof. intros H. exact (id_bits (c_id f) (c_ext f) H). Qed.

Lemma mcast_shape f : on_bus f -> exists h1 h2 b1 b2,
  mcast_packet f = Ok (h1 ++ h2 ++ b1 ++ b2 ++ c_data f) /\
  length h1 = 2%nat /\ length h2 = 2%nat /\ length b1 = 2%nat /\ length b2 = 4%nat /\
  byte_string (b1 ++ b2 ++ c_data f) /\
  le_value h1 = MCAST_MAGIC /\ le_value h2 = crc16_from_bytes (b1 ++ b2 ++ c_data f) 0xFFFF /\
  negb (N.land (le_value b1) MCAST_FLAG_CANFD =? 0) = c_fd f /\ le_value b2 = flagged_id f.
Proof.
  intros (HI & HD & HL). destruct (flagged_back f HI) as (I1 & _).
  set (fl := if c_fd f then MCAST_FLAG_CANFD else 0).
  assert (FL : fl < 65536 /\ negb (N.land fl MCAST_FLAG_CANFD =? 0) = c_fd f).
  { subst fl. destruct (c_fd f); split; reflexivity. }
  change (2 ^ 32) with 4294967296 in I1.
  destruct (pack_le_fits 2 (Z.of_N fl)) as (b1 & E1); [change (256 ^ Z.of_nat 2)%Z with 65536%Z; lia|].
  destruct (pack_le_fits 4 (Z.of_N (flagged_id f))) as (b2 & E2); [change (256 ^ Z.of_nat 4)%Z with 4294967296%Z; lia|].
  destruct (pack_le_fits 2 (Z.of_N MCAST_MAGIC)) as (h1 & E3); [vm_compute; split; [discriminate|reflexivity]|].
  pose proof (crc16_range (b1 ++ b2 ++ c_data f) 0xFFFF) as CR. change (2 ^ 16) with 65536 in CR.
  destruct (pack_le_fits 2 (Z.of_N (crc16_from_bytes (b1 ++ b2 ++ c_data f) 0xFFFF))) as (h2 & E4);
    [change (256 ^ Z.of_nat 2)%Z with 65536%Z; lia|].
  exists h1, h2, b1, b2. unfold mcast_packet. fold fl. cbv zeta. rewrite E1, E2, E3. cbn [bind]. rewrite E4. cbn [bind].
  apply pack_le_ok in E1 as (L1 & Y1 & V1). apply pack_le_ok in E2 as (L2 & Y2 & V2).
  apply pack_le_ok in E3 as (L3 & _ & V3). apply pack_le_ok in E4 as (L4 & _ & V4).
  apply N2Z.inj in V1, V2, V3, V4. rewrite V1, V2, V3, V4. repeat split; auto; [|apply FL].
  unfold byte_string in *. rewrite !Forall_app. auto.
Qed.

Lemma mcast_parts h1 h2 b1 b2 d : length h1 = 2%nat -> length h2 = 2%nat -> length b1 = 2%nat -> length b2 = 4%nat ->
  let p := h1 ++ h2 ++ b1 ++ b2 ++ d in
  part 0 2 p = h1 /\ part 2 2 p = h2 /\ part 4 2 p = b1 /\ part 6 4 p = b2 /\
  skipn 4 p = b1 ++ b2 ++ d /\ skipn 10 p = d /\ length p = (10 + length d)%nat.
Proof.
  intros L1 L2 L3 L4 p. subst p. repeat split.
  - apply (part_at []); auto.
  - apply (part_at h1); auto.
  - rewrite (app_assoc h1). apply (part_at (h1 ++ h2)); auto. rewrite app_length. lia.
  - rewrite (app_assoc h1), (app_assoc (h1 ++ h2)). apply (part_at ((h1 ++ h2) ++ b1)); auto. rewrite !app_length. lia.
  - rewrite (app_assoc h1). apply skipn_app_at. rewrite app_length. lia.
  - rewrite (app_assoc h1), (app_assoc (h1 ++ h2)), (app_assoc ((h1 ++ h2) ++ b1)).
    apply skipn_app_at. rewrite !app_length. lia.
  - rewrite !app_length. lia.
Qed.

Lemma mcast_roundtrip f now : on_bus f ->
  exists p, mcast_packet f = Ok p /\ (length p <= 74)%nat /\ exists g, mcast_parse now p = Some g /\ received_at now f g.
Proof.
  intros H. destruct (mcast_shape f H) as (h1 & h2 & b1 & b2 & E & L1 & L2 & L3 & L4 & BY & V1 & V2 & V3 & V4).
  destruct (mcast_parts h1 h2 b1 b2 (c_data f) L1 L2 L3 L4) as (P1 & P2 & P3 & P4 & P5 & P6 & P7).
  eexists. split; [exact E|]. set (p := h1 ++ h2 ++ b1 ++ b2 ++ c_data f) in *.
  destruct H as (HI & _ & HL). split; [rewrite P7; destruct (c_fd f); lia|].
  unfold mcast_parse. rewrite P1, P2, P3, P4, P5, P6, P7.
  replace (10 + length (c_data f) <? 10)%nat with false by lia.
  rewrite V1, V2, V4, !N.eqb_refl. cbn [negb]. eexists. split; [reflexivity|].
  destruct (flagged_back f HI) as (_ & I2 & I3). repeat split; assumption.
Qed.

Lemma mcast_received f now myport address port : on_bus f -> myport <> Some port ->
  exists p, mcast_packet f = Ok p /\ exists g, mcast_receive now myport address port p = Some g /\ received_at now f g.
Proof.
  intros H NE. destruct (mcast_roundtrip f now H) as (p & E & L & g & G & R). exists p. split; [exact E|].
  exists g. split; [|exact R]. unfold mcast_receive.
  replace (match myport with Some q => q =? port | None => false end) with false.
  - rewrite firstn_all2 by exact L. exact G.
  - destruct myport as [q|]; [|reflexivity]. symmetry. apply N.eqb_neq. congruence.
Qed.

Lemma mcast_dropped now data :
  (length data < 10)%nat \/ le_value (part 0 2 data) <> MCAST_MAGIC \/
  le_value (part 2 2 data) <> crc16_from_bytes (skipn 4 data) 0xFFFF -> mcast_parse now data = None.
Proof.
  intros H. unfold mcast_parse.
  destruct (length data <? 10)%nat eqn:A; [reflexivity|].
  destruct (negb (_ =? MCAST_MAGIC)) eqn:B; [reflexivity|].
  destruct (negb (_ =? crc16_from_bytes _ _)) eqn:C; [reflexivity|]. exfalso.
  destruct H as [H|[H|H]]; [lia| |].
  - apply H. destruct (_ =? MCAST_MAGIC) eqn:D; [|discriminate]. apply N.eqb_eq. exact D.
  - apply H. destruct (_ =? crc16_from_bytes _ _) eqn:D; [|discriminate]. apply N.eqb_eq. exact D.
Qed.

(** What is received instead of a packet with the same first four bytes. *)
Lemma mcast_other_body f now p q : on_bus f -> mcast_packet f = Ok p -> firstn 4 q = firstn 4 p ->
  crc16_from_bytes (skipn 4 q) 0xFFFF <> crc16_from_bytes (skipn 4 p) 0xFFFF ->
  mcast_parse now q = None.
Proof.
  intros H E F C. destruct (mcast_shape f H) as (h1 & h2 & b1 & b2 & E' & L1 & L2 & L3 & L4 & BY & V1 & V2 & V3 & V4).
  assert (EP : p = h1 ++ h2 ++ b1 ++ b2 ++ c_data f) by congruence. clear E'.
  destruct (mcast_parts h1 h2 b1 b2 (c_data f) L1 L2 L3 L4) as (P1 & P2 & _ & _ & P5 & _). rewrite <- EP in *.
  apply mcast_dropped. right. right.
  replace (part 2 2 q) with (part 2 2 p).
  - rewrite P2, V2. rewrite P5 in C. congruence.
  - unfold part. assert (G : forall l : list N, firstn 2 (skipn 2 l) = skipn 2 (firstn 4 l)).
    { intros [|x1 [|x2 [|x3 [|x4 l]]]]; reflexivity. }
    rewrite !G, F. reflexivity.
Qed.

Lemma packet_tail_bytes f p : on_bus f -> mcast_packet f = Ok p -> byte_string (skipn 4 p).
Proof.
  intros H E. destruct (mcast_shape f H) as (h1 & h2 & b1 & b2 & E' & L1 & L2 & L3 & L4 & BY & _).
  assert (EP : p = h1 ++ h2 ++ b1 ++ b2 ++ c_data f) by congruence.
  destruct (mcast_parts h1 h2 b1 b2 (c_data f) L1 L2 L3 L4) as (_ & _ & _ & _ & P5 & _). rewrite EP, P5. exact BY.
Qed.

Lemma mcast_burst f now p q : on_bus f -> mcast_packet f = Ok p -> firstn 4 q = firstn 4 p ->
  byte_string q -> burst 16 (bit_string (skipn 4 p)) (bit_string (skipn 4 q)) -> mcast_parse now q = None.
Proof.
  intros H E F BQ BU. apply (mcast_other_body f now p q H E F). intros X. symmetry in X. revert X.
  apply crc16_burst; [exact (packet_tail_bytes f p H E)| |reflexivity|exact BU].
  unfold byte_string in *. rewrite Forall_forall in *. intros x Hx. apply BQ.
  rewrite <- (firstn_skipn 4 q). apply in_or_app. right. exact Hx.
Qed.

Lemma mcast_bits f now p q : on_bus f -> mcast_packet f = Ok p -> firstn 4 q = firstn 4 p ->
  byte_string q -> length q = length p -> (1 <= distance (bit_string (skipn 4 p)) (bit_string (skipn 4 q)) <= 3)%nat ->
  mcast_parse now q = None.
Proof.
  intros H E F BQ L D. apply (mcast_other_body f now p q H E F). intros X. symmetry in X. revert X.
  apply crc16_three_bits; auto.
  - exact (packet_tail_bytes f p H E).
  - unfold byte_string in *. rewrite Forall_forall in *. intros x Hx. apply BQ.
    rewrite <- (firstn_skipn 4 q). apply in_or_app. right. exact Hx.
  - reflexivity.
  - rewrite !skipn_length. lia.
  - destruct (mcast_roundtrip f now H) as (p' & E' & L' & _). assert (p' = p) by congruence. subst p'.
    rewrite skipn_length. lia.
Qed.

(** The port that is taken for the own one is a port that was used. *)
Lemma my_port s es used : In (ms_out s) used -> (forall p, ms_my s = Some p -> In p used) ->
  (forall out, In (MConnect out) es -> In out used) ->
  In (ms_out (mcast_run s es)) used /\ forall p, ms_my (mcast_run s es) = Some p -> In p used.
Proof.
  revert s. induction es as [|e es IH]; intros s O M C; [split; assumption|].
  cbn [mcast_run]. apply IH.
  - destruct e; cbn; [apply C; left; reflexivity|exact O].
  - destruct e; cbn; [exact M|]. intros p E. injection E as <-. destruct (ms_my s) eqn:D; [apply M; reflexivity|exact O].
  - intros out I. apply C. right. exact I.
Qed.

Lemma mcast_others out es f now address port : on_bus f -> port <> out -> ~ In (MConnect port) es ->
  exists p, mcast_packet f = Ok p /\
  exists g, snd (mcast_step (mcast_run (mcast_init out) es) (MDatagram now address port p)) = Some g /\ received_at now f g.
Proof.
  intros H N1 N2.
  set (used := out :: flat_map (fun e => match e with MConnect o => [o] | _ => [] end) es).
  assert (U : forall o, In (MConnect o) es -> In o used).
  { intros o I. right. apply in_flat_map. exists (MConnect o). split; [exact I|left; reflexivity]. }
  assert (NU : ~ In port used).
  { intros [I|I]; [congruence|]. apply in_flat_map in I as ([o|] & I & J); cbn in J; [|contradiction].
    destruct J as [J|[]]. subst o. contradiction. }
  destruct (my_port (mcast_init out) es) with (used := used) as (A & B).
  - left. reflexivity.
  - discriminate.
  - exact U.
  - set (s := mcast_run (mcast_init out) es) in *. cbn [mcast_step snd]. apply mcast_received; [exact H|].
    intros E. apply NU. injection E as <-. destruct (ms_my s); auto.
Qed.

Lemma own_port out es : (forall o, ~ In (MConnect o) es) -> forall s, ms_out s = out ->
  (ms_my s = None \/ ms_my s = Some out) ->
  ms_out (mcast_run s es) = out /\ (ms_my (mcast_run s es) = None \/ ms_my (mcast_run s es) = Some out).
Proof.
  induction es as [|e es IH]; intros C s O M; [split; assumption|]. cbn [mcast_run]. apply IH.
  - intros o I. apply (C o). right. exact I.
  - destruct e as [o|]; [exfalso; apply (C o); left; reflexivity|exact O].
  - destruct e as [o|]; [exfalso; apply (C o); left; reflexivity|]. cbn. right. destruct M as [M|M]; rewrite M; congruence.
Qed.

Lemma mcast_own out es now address p : (forall o, ~ In (MConnect o) es) ->
  snd (mcast_step (mcast_run (mcast_init out) es) (MDatagram now address out p)) = None.
Proof.
  intros C. destruct (own_port out es C (mcast_init out) eq_refl (or_introl eq_refl)) as (O & M).
  cbn [mcast_step snd]. unfold mcast_receive.
  replace (match _ with Some p => p | None => _ end) with out; [rewrite N.eqb_refl; reflexivity|].
  destruct M as [M|M]; rewrite M; congruence.
Qed.

(** SocketCAN structures. *)
Lemma sock_roundtrip f now : on_bus f ->
  exists p, sock_packet f = Ok p /\ exists g, sock_parse now p = Ok g /\ received_at now f g.
Proof.
  intros (HI & HD & HL). destruct (flagged_back f HI) as (I1 & I2 & I3).
  unfold flagged_id, plain_id, ext_flag in I1, I2, I3. change (N.shiftl 1 31) with 0x80000000 in I1, I2, I3.
  set (m := if c_ext f then N.lor (c_id f) 0x80000000 else c_id f) in *.
  change (2 ^ 32) with 4294967296 in I1.
  assert (LL : (length (c_data f) <= 64)%nat) by (destruct (c_fd f); lia).
  destruct (pack_le_fits 4 (Z.of_N m)) as (b1 & E1); [change (256 ^ Z.of_nat 4)%Z with 4294967296%Z; lia|].
  destruct (pack_le_fits 1 (Z.of_nat (length (c_data f)))) as (b2 & E2); [change (256 ^ Z.of_nat 1)%Z with 256%Z; lia|].
  unfold sock_packet. fold m. cbv zeta. rewrite E1, E2. cbn [bind].
  apply pack_le_ok in E1 as (L1 & _ & V1). apply pack_le_ok in E2 as (L2 & _ & V2). apply N2Z.inj in V1.
  assert (V2' : N.to_nat (le_value b2) = length (c_data f)) by lia.
  assert (PS : forall n, (length (c_data f) <= n)%nat ->
            pack_s n (c_data f ++ repeat 0 (n - length (c_data f))) = c_data f ++ repeat 0 (n - length (c_data f))).
  { intros n Hn. unfold pack_s. rewrite app_length, repeat_length.
    replace (n - (length (c_data f) + (n - length (c_data f))))%nat with 0%nat by lia. cbn [repeat]. rewrite app_nil_r.
    apply firstn_all2. rewrite app_length, repeat_length. lia. }
  assert (RT : forall x n, length x = 3%nat -> (length (c_data f) <= n)%nat ->
     let raw := b1 ++ b2 ++ x ++ c_data f ++ repeat 0 (n - length (c_data f)) in
     length raw = (8 + n)%nat /\ part 0 4 raw = b1 /\ part 4 1 raw = b2 /\
     firstn (length (c_data f)) (skipn 8 raw) = c_data f).
  { intros x n X3 Hn raw. subst raw. repeat split.
    - rewrite !app_length, repeat_length. lia.
    - apply (part_at []); auto.
    - apply (part_at b1); auto.
    - rewrite (app_assoc b1), (app_assoc (b1 ++ b2)). rewrite skipn_app_at by (rewrite !app_length; lia).
      apply firstn_app_at. reflexivity. }
  destruct (c_fd f) eqn:FD.
  - rewrite PS by lia. destruct (RT [1; 0; 0] 64%nat eq_refl HL) as (R1 & R2 & R3 & R4). cbv zeta in *.
    eexists. split; [reflexivity|]. unfold sock_parse. rewrite R1, R2, R3, V1, V2', R4.
    change (8 + 64)%nat with 72%nat. cbn [Nat.leb negb Nat.eqb]. eexists. split; [reflexivity|].
    repeat split; cbn; auto.
  - rewrite PS by lia. destruct (RT [0; 0; 0] 8%nat eq_refl HL) as (R1 & R2 & R3 & R4). cbv zeta in *.
    eexists. split; [reflexivity|]. unfold sock_parse. rewrite R1, R2, R3, V1, V2', R4.
    change (8 + 8)%nat with 16%nat. cbn [Nat.leb negb Nat.eqb]. eexists. split; [reflexivity|].
    repeat split; cbn; auto.
Qed.

(** MAVLink messages. *)
Lemma mav_roundtrip bus f now : on_bus f ->
  exists m, mav_message bus f = Some m /\ mv_bus m = bus /\
    length (mv_data m) = (if c_fd f then 64%nat else 8%nat) /\ received_at now f (mav_parse now m).
Proof.
  intros (HI & HD & HL). destruct (flagged_back f HI) as (I1 & I2 & I3).
  unfold mav_message. cbv zeta. set (max := if c_fd f then 64%nat else 8%nat) in *.
  set (msg := if (length (c_data f) <? max)%nat then _ else _).
  assert (LM : length msg = max).
  { subst msg. destruct (length (c_data f) <? max)%nat eqn:E; [rewrite app_length, repeat_length|]; lia. }
  rewrite LM, Nat.eqb_refl. replace (flagged_id f <? 2 ^ 32) with true by lia. cbn [andb].
  eexists. split; [reflexivity|]. cbn [mv_bus mv_data]. split; [reflexivity|]. split; [exact LM|].
  unfold received_at, mav_parse. cbn [mv_id mv_len mv_data mv_fd c_id c_data c_ext c_fd c_ts]. repeat split; auto.
  subst msg. dif; [apply firstn_app_at; reflexivity|apply firstn_all].
Qed.

From Verif.Base Require Import Prelude Bits.
From Verif.Model Require Import BitCodec Types Codec.
From Verif.Spec Require Import CodecSpec.
From Verif.Proofs Require Import BitCodecFacts CodecFacts DecodeFacts WireFacts TruncFacts ClipFacts.

Lemma pack_unpack_pad t v tao pad :
  wf_type t -> valid t v -> length pad < 8 ->
  exists bs v' rest,
    pack t tao v = Ok bs /\
    unpack t tao (bs ++ pad) = Ok (v', rest) /\
    content t v' = content t v /\ valid t v'.
Proof.
  intros Hwf Hv Hp. destruct (pack_unpack t Hwf v Hv tao) as (bs & E & H).
  destruct (H pad) as (v' & rest & E' & Hc & Hval & _); [auto|].
  exists bs, v', rest. auto.
Qed.

Lemma pack_unpack_bytes t v tao :
  wf_type t -> valid t v ->
  exists bs v' rest,
    pack t tao v = Ok bs /\
    unpack t tao (bits_from_bytes (bytes_from_bits bs)) = Ok (v', rest) /\
    content t v' = content t v /\ valid t v'.
Proof.
  intros Hwf Hv. destruct (pack_unpack t Hwf v Hv tao) as (bs & E & H).
  destruct (bytes_from_bits_spec bs) as (k & Hk & Hb).
  destruct (H (repeat false k)) as (v' & rest & E' & Hc & Hval & _);
    [rewrite repeat_length; auto|].
  exists bs, v', rest. rewrite Hb. auto.
Qed.

Lemma pack_length_bounds t v tao : wf_type t -> valid t v ->
  exists bs, pack t tao v = Ok bs /\
    get_min_bitlen t <= length bs <= get_max_bitlen t.
Proof. intros Hwf Hv. exact (pack_bounds t Hwf v Hv tao). Qed.

Lemma decoded_valid t tao s v rest : wf_type t ->
  unpack t tao s = Ok (v, rest) -> sizes_ok t v -> valid t v.
Proof. intros. eapply unpack_valid; eassumption. Qed.

Lemma decoded_count_bound et mx s items rest : 1 <= mx ->
  unpack (TArr true et mx) false s = Ok (VArr items, rest) ->
  length items <= 2 * mx.
Proof.
  intros Hm H. rewrite unpack_arr_eq in H. cbn [negb andb] in H. cbn zeta in H.
  apply bind_ok in H as (a & H0 & H).
  apply bind_ok in H as ([vs s'] & H1 & H). injection H as <- <-.
  apply unpack_n_inv with (P := fun _ => True) in H1 as [_ ->]; [|auto].
  apply le_be_roundtrip in H0 as [Hl _].
  pose proof (N_of_bits_lt a) as Hlt. rewrite Hl in Hlt.
  unfold array_len_bits_from_max_size in Hlt. rewrite N2Nat.id in Hlt.
  assert (2 ^ N.log2_up (N.of_nat mx + 1) < 2 * (N.of_nat mx + 1))%N.
  { assert (1 < N.of_nat mx + 1)%N as H1' by lia.
    pose proof (N.log2_up_spec _ H1') as [H2 _].
    assert (N.log2_up (N.of_nat mx + 1) = N.succ (N.pred (N.log2_up (N.of_nat mx + 1)))) as ->.
    { pose proof (N.log2_up_pos _ H1'). lia. }
    rewrite N.pow_succ_r'. lia. }
  lia.
Qed.

Lemma pack_unpack_suffix t v more : wf_type t -> valid t v ->
  exists bs v', pack t false v = Ok bs /\
    unpack t false (bs ++ more) = Ok (v', more) /\ content t v' = content t v.
Proof.
  intros Hwf Hv. destruct (pack_unpack t Hwf v Hv false) as (bs & E & H).
  destruct (H more) as (v' & rest & E' & Hc & Hval & [->|[? _]]); [discriminate| |discriminate].
  exists bs, v'. auto.
Qed.

Lemma reencode_decoded t s v rest : wf_type t ->
  unpack t false s = Ok (v, rest) -> sizes_ok t v ->
  length (void_mask t v) <= length s ->
  exists bs, pack t false v = Ok bs /\
    length bs = length (void_mask t v) /\
    rest = skipn (length bs) s /\
    forall i, i < length bs ->
      if nth i (void_mask t v) false then nth i bs false = false
      else nth_error s i = Some (nth i bs false).
Proof.
  intros Hwf H Hs HL.
  destruct (unpack_pack t Hwf s v rest H) as (bs & E & Hl & Hr & Hi);
    [eapply unpack_valid; eassumption|exact HL|].
  exists bs. auto.
Qed.

Lemma decode_injective t s1 s2 v r1 r2 : wf_type t ->
  unpack t false s1 = Ok (v, r1) -> unpack t false s2 = Ok (v, r2) -> sizes_ok t v ->
  length (void_mask t v) <= length s1 -> length (void_mask t v) <= length s2 ->
  forall i, i < length (void_mask t v) -> nth i (void_mask t v) false = false ->
    nth_error s1 i = nth_error s2 i.
Proof.
  intros Hwf H1 H2 Hs L1 L2 i Hi Hm.
  destruct (reencode_decoded t s1 v r1 Hwf H1 Hs L1) as (b1 & E1 & Hl1 & _ & Hi1).
  destruct (reencode_decoded t s2 v r2 Hwf H2 Hs L2) as (b2 & E2 & Hl2 & _ & Hi2).
  rewrite E1 in E2. injection E2 as <-.
  specialize (Hi1 i ltac:(lia)). specialize (Hi2 i ltac:(lia)).
  rewrite Hm in *. congruence.
Qed.

Lemma integer_layout k cm n tao x : 1 <= n -> (x < 2 ^ N.of_nat n)%N ->
  exists w, pack (TPrim k n cm) tao (VPrim (bits_of_N n x)) = Ok w /\ length w = n /\
    forall j, j < n -> nth j w false = N.testbit x (N.of_nat (wire_index n j)).
Proof.
  intros Hn Hx. exists (wire_int n x). split.
  - rewrite (pack_wire (TPrim k n cm) Hn); [|constructor; apply bits_of_N_length].
    cbn [wire]. rewrite N_of_bits_of_N_small by exact Hx. reflexivity.
  - unfold wire_int. rewrite map_length, seq_length. split; [reflexivity|].
    intros j Hj.
    apply (nth_map_seq (fun j => N.testbit x (N.of_nat (wire_index n j)))). exact Hj.
Qed.

Lemma bits_byte_chunks m x :
  concat (rchunks 8 (bits_of_N (8 * m) x)) =
  concat (map (fun i => bits_of_N 8 (x / 256 ^ N.of_nat i)) (seq 0 m)).
Proof.
  revert x. induction m as [|m IH]; intros x; [reflexivity|].
  rewrite rchunks_cons; [|lia|].
  2:{ intros E. apply (f_equal (@length bool)) in E. rewrite bits_of_N_length in E. cbn in E. lia. }
  cbn [concat]. rewrite bits_of_N_length.
  replace (8 * S m) with (8 * m + 8) by lia.
  rewrite bits_of_N_app.
  rewrite skipn_app_exact by (rewrite bits_of_N_length; lia).
  rewrite firstn_app_exact by (rewrite bits_of_N_length; lia).
  rewrite IH. cbn [seq map concat]. f_equal.
  - rewrite N.pow_0_r, N.div_1_r. reflexivity.
  - rewrite <- seq_shift, map_map. f_equal. apply map_ext. intros i.
    f_equal. rewrite N.shiftr_div_pow2, N.div_div by (try apply N.pow_nonzero; lia).
    f_equal. change (2 ^ N.of_nat 8)%N with 256%N.
    rewrite Nat2N.inj_succ, N.pow_succ_r'. reflexivity.
Qed.

Lemma integer_bytes k cm m tao x : 1 <= m -> (x < 256 ^ N.of_nat m)%N ->
  exists w, pack (TPrim k (8 * m) cm) tao (VPrim (bits_of_N (8 * m) x)) = Ok w /\
    bytes_from_bits w = map (fun i => ((x / 256 ^ N.of_nat i) mod 256)%N) (seq 0 m).
Proof.
  intros Hm Hx. eexists. split.
  - change (pack (TPrim k (8 * m) cm) tao (VPrim (bits_of_N (8 * m) x)))
      with (base_pack (bits_of_N (8 * m) x) (8 * m)).
    apply base_pack_exact. apply bits_of_N_length.
  - rewrite bits_byte_chunks. unfold bytes_from_bits.
    set (ls := map (fun i => bits_of_N 8 (x / 256 ^ N.of_nat i)) (seq 0 m)).
    assert (forall l, In l ls -> length l = 8) as Hls.
    { intros l Hl. unfold ls in Hl. apply in_map_iff in Hl as (i & <- & _).
      apply bits_of_N_length. }
    assert (length (concat ls) = 8 * length ls) as Hcl.
    { clearbody ls. induction ls as [|l ls IH]; [reflexivity|].
      cbn [concat length]. rewrite app_length, IH, (Hls l) by (cbn; auto; intros; apply Hls; cbn; auto).
      lia. }
    replace (Nat.eqb (length (concat ls) mod 8) 0) with true
      by (symmetry; apply Nat.eqb_eq; rewrite Hcl, Nat.mul_comm; apply Nat.mod_mul; lia).
    rewrite chunks_concat; [|lia|].
    + unfold ls. rewrite map_map. apply map_ext. intros i.
      rewrite N_of_bits_of_N. reflexivity.
    + clear Hcl. clearbody ls. induction ls as [|l ls IH]; [exact I|].
      assert (length l = 8) as Hl by (apply Hls; cbn; auto).
      destruct ls as [|l' ls]; [cbn; lia|].
      change (length l = 8 /\ chunked 8 (l' :: ls)). split; [exact Hl|].
      apply IH. intros l0 H0. apply Hls. cbn in *. auto.
Qed.

Lemma truncated_rejected_all t v bs p q : wf_type t -> no_gaps t ->
  valid t v -> pack t false v = Ok bs -> bs = p ++ q -> q <> [] ->
  is_ok (unpack t false p) = false.
Proof. intros. eapply truncated_rejected; eassumption. Qed.

Lemma pack_is_wire t v tao : wf_type t -> valid t v -> pack t tao v = Ok (wire t tao v).
Proof. intros. apply pack_wire; assumption. Qed.

Lemma pack_any t v tao : wf_type t -> loose t v ->
  valid t (clip t v) /\ pack t tao v = Ok (wire t tao (clip t v)).
Proof.
  intros Hwf Hv. destruct (pack_clip t Hwf v Hv) as [H1 H2].
  split; [exact H1|]. rewrite H2. apply pack_wire; assumption.
Qed.

Lemma relay_any t tao tao' s v rest : wf_type t -> unpack t tao s = Ok (v, rest) ->
  exists bs, pack t tao' v = Ok bs /\ length bs <= get_max_bitlen t /\
    exists v' rest', unpack t tao' bs = Ok (v', rest') /\ valid t v' /\
      content t v' = content t (clip t v).
Proof.
  intros Hwf H. pose proof (unpack_loose t Hwf _ _ _ _ H) as Hl.
  destruct (pack_clip t Hwf v Hl) as [Hv Hp]. rewrite Hp.
  destruct (pack_bounds t Hwf _ Hv tao') as (bs & E & Hb).
  destruct (pack_unpack t Hwf _ Hv tao') as (bs' & E' & Hrt).
  rewrite E in E'. injection E' as <-.
  exists bs. split; [exact E|]. split; [lia|].
  destruct (Hrt []) as (v' & rest' & E2 & Hc & Hv' & _); [cbn; lia|].
  rewrite app_nil_r in E2. exists v', rest'. auto.
Qed.

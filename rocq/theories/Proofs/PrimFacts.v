From Verif.Base Require Import Prelude Bits.
From Verif.Model Require Import BitCodec Types Codec Prim.
From Verif.Spec Require Import CodecSpec PrimSpec.
From Verif.Proofs Require Import BitCodecFacts CodecFacts CodecTop.
Local Open Scope Z_scope.

Lemma pow2_pos n : 0 <= n -> 0 < 2 ^ n.
Proof. intros. apply Z.pow_pos_nonneg; lia. Qed.

Lemma pow2_half n : (1 <= n)%nat -> 2 ^ Z.of_nat n = 2 * 2 ^ (Z.of_nat n - 1).
Proof.
  intros H. rewrite <- Z.pow_succ_r by lia. f_equal. lia.
Qed.

Lemma pow2_N n : Z.of_N (2 ^ N.of_nat n) = 2 ^ Z.of_nat n.
Proof. rewrite N2Z.inj_pow. f_equal. lia. Qed.

(** The signed range as computed, for each of the 64 lengths. *)
Lemma signed_range_small n : (1 <= n <= 53)%nat ->
  signed_range n = Ok (int_lo KInt n, int_hi KInt n).
Proof.
  intros H.
  assert (forallb (fun i => let n := S i in
    match signed_range n with
    | Ok (lo, hi) => (lo =? int_lo KInt n) && (hi =? int_hi KInt n)
    | Err _ => false end) (seq 0 53) = true) as E by (vm_compute; reflexivity).
  rewrite forallb_forall in E. specialize (E (n - 1)%nat).
  rewrite in_seq in E. specialize (E ltac:(lia)). cbn zeta in E.
  replace (S (n - 1)) with n in E by lia.
  destruct (signed_range n) as [[lo hi]|]; [|discriminate].
  apply andb_true_iff in E as [E1 E2]. apply Z.eqb_eq in E1, E2. congruence.
Qed.

Lemma signed_range_big n : (54 <= n <= 64)%nat ->
  signed_range n = Ok (int_lo KInt n - 1, int_hi KInt n + 1).
Proof.
  intros H.
  assert (forallb (fun i => let n := (54 + i)%nat in
    match signed_range n with
    | Ok (lo, hi) => (lo =? int_lo KInt n - 1) && (hi =? int_hi KInt n + 1)
    | Err _ => false end) (seq 0 11) = true) as E by (vm_compute; reflexivity).
  rewrite forallb_forall in E. specialize (E (n - 54)%nat).
  rewrite in_seq in E. specialize (E ltac:(lia)). cbn zeta in E.
  replace (54 + (n - 54))%nat with n in E by lia.
  destruct (signed_range n) as [[lo hi]|]; [|discriminate].
  apply andb_true_iff in E as [E1 E2]. apply Z.eqb_eq in E1, E2. congruence.
Qed.

Lemma unsigned_range_ok n : (1 <= n <= 64)%nat ->
  unsigned_range n = Ok (0, 2 ^ Z.of_nat n - 1).
Proof.
  intros H. unfold unsigned_range.
  replace ((1 <=? n)%nat && (n <=? 64)%nat) with true by lia. reflexivity.
Qed.

Lemma format_b_ok n x : (1 <= n)%nat -> 0 <= x < 2 ^ Z.of_nat n ->
  format_b n x = Ok (bits_of_N n (Z.to_N x)).
Proof.
  intros Hn Hx. unfold format_b. replace (x <? 0) with false by lia.
  rewrite py_format_b_fit; [reflexivity|lia|].
  pose proof (pow2_N n). lia.
Qed.

Lemma get_bits k n x : (1 <= n)%nat -> 0 <= x < 2 ^ Z.of_nat n -> k <> KFloat -> k <> KBool ->
  get_int k n (bits_of_N n (Z.to_N x)) =
  Some (match k with
        | KInt => if 2 ^ (Z.of_nat n - 1) <=? x then x - 2 ^ Z.of_nat n else x
        | _ => x end).
Proof.
  intros Hn Hx Hk Hk'. unfold get_int.
  destruct (bits_of_N n (Z.to_N x)) as [|b l] eqn:E.
  { apply (f_equal (@length bool)) in E. rewrite bits_of_N_length in E. cbn in E. lia. }
  rewrite <- E. pose proof (pow2_N n).
  rewrite N_of_bits_of_N_small by lia. rewrite Z2N.id by lia.
  destruct k; try congruence.
  rewrite !Z.shiftl_1_l. destruct (2 ^ (Z.of_nat n - 1) <=? x); f_equal; lia.
Qed.

(** What is stored and read back, in terms of the number that reaches the
    formatting step. *)
Lemma land_ones_mod x n : Z.land x (Z.shiftl 1 (Z.of_nat n) - 1) = x mod 2 ^ Z.of_nat n.
Proof.
  rewrite Z.shiftl_1_l. rewrite <- Z.land_ones by lia. rewrite Z.ones_equiv.
  f_equal. 
Qed.

(** The value a field shows after an assignment. *)
Definition shown (k : kind) (n : nat) (cm : cast_mode) (x : Z) : Z :=
  match k with
  | KBool => if x =? 0 then 0 else 1
  | KUint => match cm with
             | Saturated => Z.max 0 (Z.min (2 ^ Z.of_nat n - 1) x)
             | Truncated => x mod 2 ^ Z.of_nat n
             end
  | _ => match cm with
         | Saturated =>
             if (n <=? 53)%nat then
               Z.max (- 2 ^ (Z.of_nat n - 1)) (Z.min (2 ^ (Z.of_nat n - 1) - 1) x)
             else if 2 ^ (Z.of_nat n - 1) <=? x then - 2 ^ (Z.of_nat n - 1)
             else if x <? - 2 ^ (Z.of_nat n - 1) then 2 ^ (Z.of_nat n - 1) - 1
             else x
         | Truncated =>
             let r := x mod 2 ^ Z.of_nat n in
             if 2 ^ (Z.of_nat n - 1) <=? r then r - 2 ^ Z.of_nat n else r
         end
  end.

Lemma set_get k n cm x : int_type k n ->
  exists b, set_int k n cm x = Ok b /\ length b = n /\
    get_int k n b = Some (shown k n cm x).
Proof.
  intros Ht. destruct k; cbn [int_type] in Ht.
  - subst n. cbn [set_int shown]. eexists. split; [reflexivity|]. split; [reflexivity|].
    destruct (x =? 0) eqn:E; reflexivity.
  - pose proof (pow2_pos (Z.of_nat n) ltac:(lia)).
    cbn [set_int]. unfold cast. cbn [value_range].
    rewrite unsigned_range_ok by lia. cbn [bind].
    destruct cm; cbn [bind shown].
    + set (v := if 2 ^ Z.of_nat n - 1 <? x then _ else _).
      assert (v = Z.max 0 (Z.min (2 ^ Z.of_nat n - 1) x)) as Hv
        by (unfold v; dif; lia).
      clearbody v. subst v. set (v := Z.max 0 _).
      assert (0 <= v < 2 ^ Z.of_nat n) as Hb by lia. clearbody v.
      exists (bits_of_N n (Z.to_N v)). split; [apply format_b_ok; lia|].
      split; [apply bits_of_N_length|].
      rewrite get_bits by (lia || discriminate). reflexivity.
    + rewrite land_ones_mod. pose proof (Z.mod_pos_bound x (2 ^ Z.of_nat n) ltac:(lia)).
      eexists. split; [apply format_b_ok; lia|]. split; [apply bits_of_N_length|].
      rewrite get_bits by (lia || discriminate). reflexivity.
  - pose proof (pow2_pos (Z.of_nat n - 1) ltac:(lia)) as Hp.
    pose proof (pow2_half n ltac:(lia)) as Hh.
    cbn [set_int]. unfold cast. cbn [value_range].
    destruct cm.
    + cbn [shown]. destruct (n <=? 53)%nat eqn:E53.
      * rewrite signed_range_small by lia. cbn [bind int_lo int_hi].
        set (v := if 2 ^ (Z.of_nat n - 1) - 1 <? x then _ else _).
        assert (v = Z.max (- 2 ^ (Z.of_nat n - 1)) (Z.min (2 ^ (Z.of_nat n - 1) - 1) x)) as Hv.
        { unfold v. dif; lia. }
        clearbody v. subst v. cbn [bind].
        set (v := Z.max _ _).
        assert (- 2 ^ (Z.of_nat n - 1) <= v <= 2 ^ (Z.of_nat n - 1) - 1) as Hb by lia.
        clearbody v.
        set (u := if v <? 0 then _ else _).
        assert (0 <= u < 2 ^ Z.of_nat n /\
          (if 2 ^ (Z.of_nat n - 1) <=? u then u - 2 ^ Z.of_nat n else u) = v) as [Hu Hr].
        { unfold u. dif; lia. }
        clearbody u.
        exists (bits_of_N n (Z.to_N u)). split; [apply format_b_ok; lia|].
        split; [apply bits_of_N_length|].
        rewrite get_bits by (lia || discriminate). rewrite Hr. reflexivity.
      * rewrite signed_range_big by lia. cbn [bind int_lo int_hi].
        replace (2 ^ (Z.of_nat n - 1) - 1 + 1) with (2 ^ (Z.of_nat n - 1)) by lia.
        assert (4 <= 2 ^ (Z.of_nat n - 1)) as H4.
        { change 4 with (2 ^ 2). apply Z.pow_le_mono_r; lia. }
        set (p := 2 ^ (Z.of_nat n - 1)) in *. rewrite Hh.
        set (v := if p <? x then p else if x <? - p - 1 then - p - 1 else x).
        assert (- p - 1 <= v <= p) as Hb by (unfold v; dif; lia).
        set (u := if v <? 0 then _ else _).
        assert (0 <= u < 2 * p /\
          (if p <=? u then u - 2 * p else u) =
          (if p <=? x then - p else if x <? - p then p - 1 else x)) as [Hu Hr].
        { unfold u, v. dif; lia. }
        clearbody u.
        exists (bits_of_N n (Z.to_N u)). split; [apply format_b_ok; lia|].
        split; [apply bits_of_N_length|].
        rewrite get_bits by (lia || discriminate). fold p. rewrite Hh, Hr. reflexivity.
    + assert (exists r, signed_range n = Ok r) as [[lo hi] ->].
      { destruct (le_lt_dec n 53); [rewrite signed_range_small by lia|rewrite signed_range_big by lia]; eauto. }
      cbn [bind shown]. rewrite land_ones_mod.
      pose proof (Z.mod_pos_bound x (2 ^ Z.of_nat n) ltac:(lia)) as Hb.
      replace (x mod 2 ^ Z.of_nat n <? 0) with false by lia.
      eexists. split; [apply format_b_ok; lia|]. split; [apply bits_of_N_length|].
      rewrite get_bits by (lia || discriminate). reflexivity.
  - destruct Ht.
Qed.

Lemma shown_representable k n cm x : int_type k n -> representable k n (shown k n cm x).
Proof.
  intros Ht. unfold representable. destruct k; cbn [int_type] in Ht; cbn [shown int_lo int_hi].
  - subst n. change (2 ^ Z.of_nat 1) with 2. destruct (x =? 0); lia.
  - pose proof (pow2_pos (Z.of_nat n) ltac:(lia)).
    destruct cm; [lia|]. pose proof (Z.mod_pos_bound x (2 ^ Z.of_nat n) ltac:(lia)). lia.
  - pose proof (pow2_pos (Z.of_nat n - 1) ltac:(lia)).
    pose proof (pow2_half n ltac:(lia)).
    destruct cm.
    + destruct (n <=? 53)%nat; [lia|].
      destruct (_ <=? x) eqn:?; [lia|]. destruct (x <? _) eqn:?; lia.
    + pose proof (Z.mod_pos_bound x (2 ^ Z.of_nat n) ltac:(lia)). cbn zeta.
      destruct (_ <=? _) eqn:?; lia.
  - destruct Ht.
Qed.

Lemma shown_id k n cm x : int_type k n -> representable k n x -> shown k n cm x = x.
Proof.
  intros Ht. unfold representable. destruct k; cbn [int_type] in Ht; cbn [shown int_lo int_hi].
  - subst n. change (2 ^ Z.of_nat 1) with 2. destruct (x =? 0) eqn:?; lia.
  - intros H. destruct cm; [lia|]. apply Z.mod_small. lia.
  - pose proof (pow2_pos (Z.of_nat n - 1) ltac:(lia)).
    pose proof (pow2_half n ltac:(lia)) as Hh. intros H0.
    destruct cm.
    + destruct (n <=? 53)%nat; [lia|].
      destruct (_ <=? x) eqn:?; [lia|]. destruct (x <? _) eqn:?; lia.
    + cbn zeta. destruct (Z_lt_le_dec x 0).
      * replace (x mod 2 ^ Z.of_nat n) with (x + 2 ^ Z.of_nat n).
        { destruct (_ <=? _) eqn:?; lia. }
        rewrite <- (Z.mod_small (x + 2 ^ Z.of_nat n) (2 ^ Z.of_nat n)) by lia.
        rewrite <- Z.add_mod_idemp_r, Z.mod_same, Z.add_0_r by lia. reflexivity.
      * rewrite Z.mod_small by lia. destruct (_ <=? _) eqn:?; lia.
  - destruct Ht.
Qed.

Lemma int_type_wf k n cm : int_type k n -> wf_type (TPrim k n cm).
Proof. destruct k; cbn; lia. Qed.

(** Assign, read; assign, send, receive, read. *)
Theorem assign_read k n cm x : int_type k n -> representable k n x ->
  exists b, set_int k n cm x = Ok b /\ get_int k n b = Some x.
Proof.
  intros Ht Hr. destruct (set_get k n cm x Ht) as (b & E & _ & G).
  rewrite shown_id in G by assumption. eauto.
Qed.

Theorem assign_send_read k n cm x tao more : int_type k n -> representable k n x ->
  exists b w b', set_int k n cm x = Ok b /\
    pack (TPrim k n cm) tao (VPrim b) = Ok w /\
    unpack (TPrim k n cm) tao (w ++ more) = Ok (VPrim b', more) /\
    get_int k n b' = Some x.
Proof.
  intros Ht Hr. destruct (set_get k n cm x Ht) as (b & E & Hl & G).
  rewrite shown_id in G by assumption.
  exists b, (concat (rchunks 8 b)), b. split; [exact E|].
  split; [apply base_pack_exact; exact Hl|]. split; [|exact G].
  pose proof (int_type_wf k n cm Ht) as Hw. cbn in Hw.
  change (unpack (TPrim k n cm) tao (concat (rchunks 8 b) ++ more))
    with ('(b0, s') <- base_unpack (concat (rchunks 8 b) ++ more) n ;; Ok (VPrim b0, s')).
  unfold base_unpack.
  replace (Nat.eqb n 0) with false by (symmetry; apply Nat.eqb_neq; lia).
  rewrite be_le_roundtrip by exact Hl. cbn [bind].
  rewrite skipn_app_exact by (rewrite rchunks_concat_length; exact Hl). reflexivity.
Qed.

Theorem saturate_nearest k n x : int_type k n -> k <> KBool -> (k = KInt -> (n <= 53)%nat) ->
  exists b y, set_int k n Saturated x = Ok b /\ get_int k n b = Some y /\ nearest k n x y.
Proof.
  intros Ht Hk H53. destruct (set_get k n Saturated x Ht) as (b & E & _ & G).
  exists b, (shown k n Saturated x). split; [exact E|]. split; [exact G|].
  split; [apply shown_representable; exact Ht|].
  intros z. unfold representable.
  destruct k; cbn [int_type] in Ht; cbn [shown int_lo int_hi]; try congruence.
  - lia.
  - specialize (H53 eq_refl). replace (n <=? 53)%nat with true by lia. lia.
Qed.

(** For long signed types values outside the range jump to the other end. *)
Theorem saturate_long k n x : int_type k n -> k = KInt -> (54 <= n)%nat ->
  ~ representable k n x ->
  exists b y, set_int k n Saturated x = Ok b /\ get_int k n b = Some y /\
    y = (if x <? 0 then int_hi k n else int_lo k n).
Proof.
  intros Ht -> Hn Hr. destruct (set_get KInt n Saturated x Ht) as (b & E & _ & G).
  eexists. eexists. split; [exact E|]. split; [exact G|].
  unfold representable in Hr. cbn [shown int_lo int_hi] in *.
  pose proof (pow2_pos (Z.of_nat n - 1) ltac:(lia)).
  replace (n <=? 53)%nat with false by lia.
  dif; lia.
Qed.

Theorem truncate_wraps k n x : int_type k n -> k <> KBool ->
  exists b y, set_int k n Truncated x = Ok b /\ get_int k n b = Some y /\ wrapped k n x y.
Proof.
  intros Ht Hk. destruct (set_get k n Truncated x Ht) as (b & E & _ & G).
  exists b, (shown k n Truncated x). split; [exact E|]. split; [exact G|].
  split; [apply shown_representable; exact Ht|].
  destruct k; cbn [int_type] in Ht; cbn [shown]; try congruence.
  - pose proof (pow2_pos (Z.of_nat n) ltac:(lia)).
    exists (x / 2 ^ Z.of_nat n). pose proof (Z.div_mod x (2 ^ Z.of_nat n)). lia.
  - pose proof (pow2_pos (Z.of_nat n) ltac:(lia)).
    pose proof (Z.div_mod x (2 ^ Z.of_nat n)). cbn zeta.
    destruct (_ <=? _).
    + exists (x / 2 ^ Z.of_nat n + 1). lia.
    + exists (x / 2 ^ Z.of_nat n). lia.
  - destruct Ht.
Qed.

Theorem set_valid k n cm x : int_type k n ->
  exists b, set_int k n cm x = Ok b /\ valid (TPrim k n cm) (VPrim b).
Proof.
  intros Ht. destruct (set_get k n cm x Ht) as (b & E & Hl & _).
  exists b. split; [exact E|]. constructor. exact Hl.
Qed.

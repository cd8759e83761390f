From Verif.Base Require Import Prelude Bits.
From Verif.Model Require Import BitCodec Types Codec.
From Verif.Spec Require Import CodecSpec.
From Verif.Proofs Require Import BitCodecFacts CodecFacts DecodeFacts.

Lemma wire_index_lt n j : j < n -> wire_index n j < n.
Proof. unfold wire_index. intros H. lia. Qed.

Lemma nth_skipn {A} n (l : list A) i d : nth i (skipn n l) d = nth (n + i) l d.
Proof.
  revert l. induction n as [|n IH]; intros l; [reflexivity|].
  destruct l as [|a l]; cbn; [destruct i; reflexivity|]. apply IH.
Qed.

Lemma nth_firstn_lt {A} n (l : list A) i d : i < n -> nth i (firstn n l) d = nth i l d.
Proof.
  revert l i. induction n as [|n IH]; intros l i H; [lia|].
  destruct l as [|a l]; [destruct i; reflexivity|].
  destruct i as [|i]; [reflexivity|]. cbn. apply IH. lia.
Qed.

Lemma wire_index_small n j : j < 8 -> j < n -> n - 1 - wire_index n j = (n - 8) + j.
Proof. intros H1 H2. unfold wire_index. lia. Qed.

Lemma wire_index_step n j : 8 <= j -> j < n ->
  n - 1 - wire_index n j = (n - 8) - 1 - wire_index (n - 8) (j - 8).
Proof.
  intros H1 H2. unfold wire_index.
  assert (exists k, j = k + 1 * 8) as (k & ->) by (exists (j - 8); clear - H1; lia).
  replace (k + 1 * 8 - 8) with k by (clear; lia).
  rewrite Nat.div_add, Nat.mod_add by discriminate.
  pose proof (Nat.div_mod_eq k 8) as E. pose proof (Nat.mod_upper_bound k 8 ltac:(discriminate)) as Hr.
  set (q := k / 8) in *. set (r := k mod 8) in *. clearbody q r. subst k.
  replace (8 * (q + 1)) with (8 + 8 * q) in * by (clear; lia).
  replace (n - (8 + 8 * q)) with (n - 8 - 8 * q) by (clear; lia). set (m := n - 8 - 8 * q).
  assert (E : n = m + 8 * q + 8) by (subst m; clear - H1 H2; lia). clearbody m. subst n.
  set (x := Nat.min 8 m - 1 - r). clearbody x. clear. lia.
Qed.

Lemma nth_concat_rchunks (l : bits) j : j < length l ->
  nth j (concat (rchunks 8 l)) false = nth (length l - 1 - wire_index (length l) j) l false.
Proof.
  revert j. induction l as [|l Hl IH] using (rchunks_ind 8 ltac:(lia)); intros j Hj;
    [cbn in Hj; lia|].
  rewrite rchunks_cons by (lia || assumption). cbn [concat].
  assert (length (skipn (length l - 8) l) = Nat.min 8 (length l)) as Hs
    by (rewrite skipn_length; lia).
  destruct (lt_dec j 8) as [H8|H8].
  - rewrite app_nth1 by lia. rewrite nth_skipn.
    rewrite wire_index_small by lia. reflexivity.
  - rewrite app_nth2 by lia. rewrite Hs.
    replace (Nat.min 8 (length l)) with 8 by lia.
    rewrite IH by (rewrite firstn_length; lia).
    assert (length (firstn (length l - 8) l) = length l - 8) as ->
      by (rewrite firstn_length; lia).
    rewrite nth_firstn_lt.
    2:{ pose proof (wire_index_lt (length l - 8) (j - 8)). lia. }
    rewrite (wire_index_step (length l) j) by lia. reflexivity.
Qed.

Lemma nth_map_seq {A} (f : nat -> A) n j d : j < n -> nth j (map f (seq 0 n)) d = f j.
Proof.
  intros Hj. rewrite (nth_indep _ d (f 0)) by (rewrite map_length, seq_length; exact Hj).
  rewrite map_nth, seq_nth by exact Hj. reflexivity.
Qed.

Lemma concat_rchunks_wire b : concat (rchunks 8 b) = wire_int (length b) (N_of_bits b).
Proof.
  apply nth_ext with (d := false) (d' := false).
  - rewrite rchunks_concat_length. unfold wire_int.
    rewrite map_length, seq_length. reflexivity.
  - intros j Hj. rewrite rchunks_concat_length in Hj.
    rewrite nth_concat_rchunks by exact Hj.
    unfold wire_int. rewrite nth_map_seq by exact Hj.
    pose proof (wire_index_lt (length b) j Hj).
    transitivity (nth (length b - 1 - wire_index (length b) j)
                      (bits_of_N (length b) (N_of_bits b)) false);
      [rewrite bits_of_N_of_bits; reflexivity|].
    rewrite nth_bits_of_N by lia. f_equal. f_equal. lia.
Qed.

Lemma Forall2_length {A B} (R : A -> B -> Prop) la lb :
  Forall2 R la lb -> length la = length lb.
Proof. induction 1; cbn; auto. Qed.

Lemma Forall2_nth {A B} (R : A -> B -> Prop) la lb i a d :
  Forall2 R la lb -> nth_error la i = Some a -> R a (nth i lb d).
Proof.
  intros H. revert i. induction H as [|x y la lb Hxy H IH]; intros [|i] E;
    try discriminate; cbn in *; [congruence|auto].
Qed.

Lemma wire_items_spec (p : bool -> value -> res bits) (w : bool -> value -> bits) tao l :
  Forall (fun v => forall tao, p tao v = Ok (w tao v)) l ->
  exists bss, mapM_last (fun last i => p (tao && last) i) l = Ok bss /\
    concat bss = wire_items w tao l.
Proof.
  induction 1 as [|x l Hx Hl IH]; [exists []; auto|].
  destruct IH as (bss & E & Hc). destruct l as [|y l].
  - exists [w tao x]. cbn. rewrite andb_true_r, Hx. cbn. rewrite app_nil_r. auto.
  - exists (w false x :: bss). cbn [mapM_last] in *. rewrite andb_false_r, Hx.
    cbn [bind]. rewrite E. cbn [bind concat]. rewrite Hc. split; reflexivity.
Qed.

Lemma wire_concat_spec (p : bool -> value -> res bits) (w : bool -> value -> bits) l :
  Forall (fun v => forall tao, p tao v = Ok (w tao v)) l ->
  exists bss, mapM_last (fun _ i => p false i) l = Ok bss /\
    concat bss = concat (map (w false) l).
Proof.
  induction 1 as [|x l Hx Hl IH]; [exists []; auto|].
  destruct IH as (bss & E & Hc). exists (w false x :: bss).
  cbn [mapM_last]. rewrite Hx. cbn [bind]. rewrite E. cbn [bind map concat].
  rewrite Hc. auto.
Qed.

Lemma wire_fields_spec fs vs tao :
  Forall2 (fun t v => forall tao, pack t tao v = Ok (wire t tao v)) fs vs ->
  pack_struct (map pack fs) tao vs = Ok (wire_fields (map wire fs) tao vs).
Proof.
  induction 1 as [|f v fs vs Hf Hfs IH]; [reflexivity|].
  cbn [map pack_struct]. rewrite Hf, IH. cbn [bind]. f_equal.
  destruct Hfs as [|f' v' fs vs Hf' Hfs].
  - cbn. rewrite andb_true_r, app_nil_r. reflexivity.
  - cbn [map]. rewrite andb_false_r. reflexivity.
Qed.

Theorem pack_wire t : wf_type t -> forall v, valid t v -> forall tao,
  pack t tao v = Ok (wire t tao v).
Proof.
  induction t as [k n cm|n|dyn et mx IH|u fs IH] using dtype_ind'; intros Hwf v Hv tao.
  - inversion Hv; subst. cbn [wire]. rewrite <- concat_rchunks_wire.
    apply base_pack_exact. reflexivity.
  - reflexivity.
  - destruct Hwf as (He & _ & Hm). specialize (IH He).
    apply valid_arr_inv in Hv as (items & -> & H0 & Hlen).
    rewrite pack_arr_eq. cbn zeta.
    assert (Forall (fun v => forall tao, pack et tao v = Ok (wire et tao v)) items) as HF.
    { eapply Forall_impl; [|exact H0]. exact IH. }
    destruct dyn; cbn [negb].
    + rewrite firstn_all2 by lia. cbn [wire].
      destruct (tao && (8 <=? get_min_bitlen et)).
      * destruct (wire_concat_spec _ _ _ HF) as (bss & E & Hc).
        rewrite E. cbn [bind]. rewrite Hc. reflexivity.
      * destruct (wire_items_spec _ _ tao _ HF) as (bss & E & Hc).
        rewrite py_format_b_fit; [|apply array_len_bits_pos; exact Hm
                                  |apply array_len_bits_fit; exact Hlen].
        rewrite le_from_be_exact by apply bits_of_N_length.
        cbn [bind]. rewrite E. cbn [bind]. rewrite Hc.
        rewrite concat_rchunks_wire, bits_of_N_length.
        rewrite N_of_bits_of_N_small by (apply array_len_bits_fit; exact Hlen).
        rewrite array_len_bits_bit_length by lia. reflexivity.
    + rewrite firstn_all2 by lia. rewrite Hlen, Nat.sub_diag. cbn [repeat].
      rewrite app_nil_r. cbn [wire].
      destruct (wire_items_spec _ _ tao _ HF) as (bss & E & Hc).
      rewrite E. cbn [bind]. rewrite Hc. reflexivity.
  - apply wf_fields in Hwf as Hfs. destruct Hwf as [Hu _].
    apply valid_comp_inv in Hv as (vs & active & -> & H1 & H3).
    assert (Forall2 (fun t v => forall tao, pack t tao v = Ok (wire t tao v)) fs vs) as HF.
    { clear Hu H3. revert IH Hfs. induction H1; intros IH Hfs; constructor;
        inversion IH; inversion Hfs; subst; auto. }
    destruct u.
    + specialize (Hu eq_refl). rewrite pack_comp_eq. cbn zeta.
      set (i := match active with Some i => i | None => 0 end).
      assert (i < length fs) as Hi.
      { unfold i. destruct active; [apply H3; reflexivity|lia]. }
      pose proof (Forall2_length _ _ _ H1) as Hl.
      assert (i < length vs) as Hi' by lia.
      apply nth_error_nth' with (d := VVoid) in Hi'.
      destruct (nth_error fs i) as [t|] eqn:Et;
        [|apply nth_error_None in Et; lia].
      rewrite (pack_nth_at _ _ _ _ _ _ Et Hi').
      assert (pack t tao (nth i vs VVoid) = Ok (wire t tao (nth i vs VVoid))) as ->.
      { exact (Forall2_nth _ _ _ _ _ VVoid HF Et tao). }
      cbn [bind wire]. fold i. f_equal. f_equal.
      * rewrite py_format_b_fit; [|apply union_tag_bits_pos; exact Hu
                                  |apply union_tag_bits_fit; exact Hi].
        rewrite union_tag_bits_bit_length by exact Hu.
        replace (Nat.max (length fs - 1) 1) with (length fs - 1) by lia. reflexivity.
      * rewrite nth_indep with (d' := wire t) by (rewrite map_length; exact Hi).
        rewrite map_nth. rewrite (nth_error_nth fs i t Et). reflexivity.
    + rewrite pack_comp_eq. cbn [wire]. apply wire_fields_spec. exact HF.
Qed.

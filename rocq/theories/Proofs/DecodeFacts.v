From Verif.Base Require Import Prelude Bits.
From Verif.Model Require Import BitCodec Types Codec.
From Verif.Spec Require Import CodecSpec.
From Verif.Proofs Require Import BitCodecFacts CodecFacts.

(** ** Decoded objects have the right shape *)

Lemma base_unpack_inv s n b s' : base_unpack s n = Ok (b, s') -> 1 <= n ->
  length b = n /\ n <= length s /\ s' = skipn n s /\
  le_from_be_bits b n = Ok (firstn n s).
Proof.
  unfold base_unpack. intros H Hn.
  replace (Nat.eqb n 0) with false in H by (symmetry; apply Nat.eqb_neq; lia).
  apply bind_ok in H as (a & H0 & H). injection H as <- <-.
  pose proof (le_be_roundtrip _ _ _ H0) as [Hl Hle].
  repeat split; auto.
  unfold be_from_le_bits in H0. destruct (length s <? n) eqn:E; [discriminate|].
  apply Nat.ltb_ge in E. exact E.
Qed.

Lemma unpack_n_inv (u : bool -> bits -> res (value * bits)) (P : value -> Prop) n tao s vs s' :
  (forall tao s v s', u tao s = Ok (v, s') -> P v) ->
  unpack_n u n tao s = Ok (vs, s') -> Forall P vs /\ length vs = n.
Proof.
  intros HP. revert s vs. induction n as [|n IH]; intros s vs H; cbn [unpack_n] in H.
  - injection H as <- <-. auto.
  - apply bind_ok in H as ([v s1] & E1 & H). apply bind_ok in H as ([vs1 s2] & E2 & H).
    injection H as <- <-. apply IH in E2 as [Hf Hl]. cbn [length].
    split; [constructor; eauto|lia].
Qed.

Lemma unpack_tao_inv (u : bits -> res (value * bits)) (P : value -> Prop) fuel s vs :
  (forall s v s', u s = Ok (v, s') -> P v) ->
  unpack_tao u fuel s = Ok vs -> Forall P vs.
Proof.
  intros HP. revert s vs. induction fuel as [|f IH]; intros s vs H; cbn [unpack_tao] in H;
    [discriminate|].
  destruct (8 <=? length s).
  - apply bind_ok in H as ([v s1] & E1 & H). apply bind_ok in H as (vs1 & E2 & H).
    injection H as <-. constructor; eauto.
  - injection H as <-. constructor.
Qed.

Lemma unpack_struct_inv fs tao s vs s' :
  Forall (fun t => forall tao s v s', unpack t tao s = Ok (v, s') ->
                   sizes_ok t v -> valid t v) fs ->
  unpack_struct (map unpack fs) tao s = Ok (vs, s') ->
  Forall2 sizes_ok fs vs -> Forall2 valid fs vs.
Proof.
  intros HF. revert s vs. induction HF as [|f fs Hf Hfs IH]; intros s vs H H2;
    cbn [map unpack_struct] in H.
  - injection H as <- <-. constructor.
  - apply bind_ok in H as ([v s1] & E1 & H). apply bind_ok in H as ([vs1 s2] & E2 & H).
    injection H as <- <-. inversion H2; subst. constructor; eauto.
Qed.

Lemma Forall2_list_set_inv {A B} (R : A -> B -> Prop) la lb i b a :
  Forall2 R la (list_set lb i b) -> nth_error la i = Some a -> i < length lb -> R a b.
Proof.
  revert la i. induction lb as [|b0 lb IH]; intros la i H Ha Hi; [cbn in Hi; lia|].
  destruct i as [|i]; cbn [list_set] in H; inversion H; subst.
  - cbn in Ha. injection Ha as <-. assumption.
  - cbn in Ha, Hi. eapply IH; eauto. lia.
Qed.

Theorem unpack_valid t : wf_type t -> forall tao s v rest,
  unpack t tao s = Ok (v, rest) -> sizes_ok t v -> valid t v.
Proof.
  induction t as [k n cm|n|dyn et mx IH|u fs IH] using dtype_ind';
    intros Hwf tao s v rest H Hs.
  - change (unpack (TPrim k n cm) tao s)
      with ('(b, s') <- base_unpack s n ;; Ok (VPrim b, s')) in H.
    apply bind_ok in H as ([b s'] & H0 & H). injection H as <- <-.
    apply base_unpack_inv in H0 as (Hl & _); [|exact Hwf].
    constructor. exact Hl.
  - change (unpack (TVoid n) tao s) with (@Ok (value * bits) (VVoid, skipn n s)) in H.
    injection H as <- <-. constructor.
  - destruct Hwf as (He & _ & Hm). specialize (IH He).
    rewrite unpack_arr_eq in H.
    assert (forall items, Forall (fun v => sizes_ok et v -> valid et v) items ->
      Forall (sizes_ok et) items -> Forall (valid et) items) as Hitems.
    { intros items H1 H2. rewrite Forall_forall in *. auto. }
    destruct dyn; cbn [negb] in H.
    + destruct (tao && (8 <=? get_min_bitlen et)).
      * apply bind_ok in H as (vs & H0 & H). injection H as <- <-. inversion Hs; subst.
        constructor; [|assumption]. apply Hitems; [|assumption].
        eapply unpack_tao_inv; [|exact H0]. cbn. intros; eapply IH; eauto.
      * cbn zeta in H. apply bind_ok in H as (a & H0 & H).
        apply bind_ok in H as ([vs s'] & H1 & H).
        injection H as <- <-. inversion Hs; subst.
        constructor; [|assumption]. apply Hitems; [|assumption].
        eapply unpack_n_inv; [|exact H1]. cbn. intros; eapply IH; eauto.
    + apply bind_ok in H as ([vs s'] & H0 & H). injection H as <- <-.
      inversion Hs; subst.
      apply (unpack_n_inv _ (fun v => sizes_ok et v -> valid et v)) in H0 as [Hf Hl];
        [|intros; eapply IH; eauto].
      constructor; auto.
  - apply wf_fields in Hwf as Hfs. rewrite unpack_comp_eq in H.
    assert (Forall (fun t => forall tao s v s', unpack t tao s = Ok (v, s') ->
                   sizes_ok t v -> valid t v) fs) as HF.
    { clear H Hs Hwf. induction fs as [|f fs IHfs]; constructor;
        inversion IH; inversion Hfs; subst; auto.
      intros. eapply H1; eauto. }
    destruct u.
    + cbn zeta in H. set (w := union_tag_bits_from_num_elements (length fs)) in *.
      destruct (firstn w s) as [|b0 l0] eqn:Ef; [discriminate|].
      set (tag := N.to_nat (N_of_bits (b0 :: l0))) in *.
      destruct (nth_error (map unpack fs) tag) as [uf|] eqn:En; [|discriminate].
      apply bind_ok in H as ([v1 s'] & H0 & H). injection H as <- <-.
      inversion Hs; subst.
      rewrite nth_error_map in En. destruct (nth_error fs tag) as [t|] eqn:Et; [|discriminate].
      cbn in En. injection En as <-.
      assert (tag < length fs) as Hlt by (apply nth_error_Some; congruence).
      constructor.
      * apply list_set_Forall2; [apply Forall2_default; exact Hfs|].
        intros a Ha. assert (a = t) as -> by congruence.
        rewrite Forall_forall in HF.
        eapply HF; [eapply nth_error_In; exact Et|exact H0|].
        eapply Forall2_list_set_inv; [eassumption|exact Et|]. rewrite map_length. exact Hlt.
      * intros i [= <-]. exact Hlt.
    + apply bind_ok in H as ([vs s'] & H0 & H). injection H as <- <-.
      inversion Hs; subst. constructor. eapply unpack_struct_inv; eauto.
Qed.

(** ** Re-encoding a decoded value *)

(** [bs] equals the front of [s] outside [mask], is zero inside it, and
    [rest] is what follows. *)
Definition covers (mask bs s rest : bits) : Prop :=
  length mask = length bs /\ rest = skipn (length bs) s /\
  forall i, i < length bs ->
    if nth i mask false then nth i bs false = false
    else nth_error s i = Some (nth i bs false).

Lemma covers_nil s : covers [] [] s s.
Proof. split; [reflexivity|]. split; [reflexivity|]. cbn. lia. Qed.

Lemma nth_error_skipn {A} n (l : list A) i :
  nth_error (skipn n l) i = nth_error l (n + i).
Proof.
  revert l. induction n as [|n IH]; intros l; [reflexivity|].
  destruct l as [|a l]; cbn; [destruct i; reflexivity|]. apply IH.
Qed.

Lemma skipn_skipn {A} a b (l : list A) : skipn a (skipn b l) = skipn (b + a) l.
Proof.
  revert l. induction b as [|b IH]; intros l; [reflexivity|].
  destruct l as [|x l]; cbn; [apply skipn_nil|apply IH].
Qed.

Lemma covers_app m1 b1 m2 b2 s s1 s2 :
  covers m1 b1 s s1 -> covers m2 b2 s1 s2 -> covers (m1 ++ m2) (b1 ++ b2) s s2.
Proof.
  intros (L1 & -> & H1) (L2 & -> & H2). split; [rewrite !app_length; lia|].
  split; [rewrite app_length, skipn_skipn; reflexivity|].
  intros i Hi. rewrite app_length in Hi.
  destruct (lt_dec i (length b1)) as [Hlt|Hge].
  - rewrite !app_nth1 by lia. apply H1. exact Hlt.
  - rewrite !app_nth2 by lia. rewrite L1.
    specialize (H2 (i - length b1) ltac:(lia)).
    rewrite nth_error_skipn in H2.
    replace (length b1 + (i - length b1)) with i in H2 by lia. exact H2.
Qed.

Lemma nth_repeat_false n i : nth i (repeat false n) false = false.
Proof. revert i. induction n; intros [|i]; cbn; auto. Qed.

Lemma nth_repeat_true n i : i < n -> nth i (repeat true n) false = true.
Proof. revert i. induction n; intros [|i] H; cbn; auto; try lia. apply IHn. lia. Qed.

Lemma nth_error_firstn_lt {A} n (l : list A) i : i < n ->
  nth_error (firstn n l) i = nth_error l i.
Proof.
  revert l i. induction n as [|n IH]; intros l i H; [lia|].
  destruct l as [|a l]; [destruct i; reflexivity|].
  destruct i as [|i]; [reflexivity|]. cbn. apply IH. lia.
Qed.

Lemma covers_exact n s : n <= length s ->
  covers (repeat false n) (firstn n s) s (skipn n s).
Proof.
  intros H. assert (length (firstn n s) = n) as Hl by (rewrite firstn_length; lia).
  split; [rewrite repeat_length; lia|]. rewrite Hl. split; [reflexivity|].
  intros i Hi. rewrite nth_repeat_false.
  rewrite <- (nth_error_firstn_lt n s i Hi).
  apply nth_error_nth'. lia.
Qed.

Lemma covers_void n s : covers (repeat true n) (repeat false n) s (skipn n s).
Proof.
  split; [rewrite !repeat_length; reflexivity|]. rewrite repeat_length.
  split; [reflexivity|]. intros i Hi. rewrite nth_repeat_true by exact Hi.
  apply nth_repeat_false.
Qed.

Definition reenc (t : dtype) : Prop := forall s v rest,
  unpack t false s = Ok (v, rest) -> valid t v ->
  length (void_mask t v) <= length s ->
  exists bs, pack t false v = Ok bs /\ covers (void_mask t v) bs s rest.

Lemma covers_rest_length m bs s rest k : covers m bs s rest ->
  length m + k <= length s -> k <= length rest.
Proof. intros (L & -> & _) H. rewrite skipn_length. lia. Qed.

Lemma reenc_n et n s vs rest : reenc et ->
  unpack_n (unpack et) n false s = Ok (vs, rest) -> Forall (valid et) vs ->
  length (concat (map (void_mask et) vs)) <= length s ->
  exists bss, mapM_last (fun last i => pack et (false && last) i) vs = Ok bss /\
    covers (concat (map (void_mask et) vs)) (concat bss) s rest.
Proof.
  intros Hr. revert s vs rest. induction n as [|n IH]; intros s vs rest H HF HL;
    cbn [unpack_n] in H.
  - injection H as <- <-. exists []. split; [reflexivity|]. apply covers_nil.
  - apply bind_ok in H as ([v s1] & E1 & H). apply bind_ok in H as ([vs1 s2] & E2 & H).
    injection H as <- <-. inversion HF; subst.
    cbn [map concat] in HL. rewrite app_length in HL.
    cbn [andb] in E1. destruct (Hr _ _ _ E1) as (bs & E & Hc); [assumption|lia|].
    destruct (IH _ _ _ E2) as (bss & E' & Hc');
      [assumption|eapply covers_rest_length; eassumption|].
    exists (bs :: bss). cbn [mapM_last andb]. rewrite E. cbn [bind].
    cbn [andb] in E'. rewrite E'. cbn [bind]. split; [reflexivity|].
    cbn [map concat]. eapply covers_app; eassumption.
Qed.

Lemma reenc_struct fs s vs rest :
  Forall (fun t => reenc t) fs ->
  unpack_struct (map unpack fs) false s = Ok (vs, rest) -> Forall2 valid fs vs ->
  length (concat (zip_mask (map void_mask fs) vs)) <= length s ->
  exists bs, pack_struct (map pack fs) false vs = Ok bs /\
    covers (concat (zip_mask (map void_mask fs) vs)) bs s rest.
Proof.
  intros HF. revert s vs. induction HF as [|f fs Hf Hfs IH]; intros s vs H H2 HL;
    cbn [map unpack_struct] in H.
  - injection H as <- <-. exists []. split; [reflexivity|]. apply covers_nil.
  - apply bind_ok in H as ([v s1] & E1 & H). apply bind_ok in H as ([vs1 s2] & E2 & H).
    injection H as <- <-. inversion H2; subst. cbn [andb] in *.
    cbn [map zip_mask concat] in HL. rewrite app_length in HL.
    destruct (Hf _ _ _ E1) as (bs & E & Hc); [assumption|lia|].
    destruct (IH _ _ E2) as (bs' & E' & Hc');
      [assumption|eapply covers_rest_length; eassumption|].
    exists (bs ++ bs'). cbn [map pack_struct andb]. rewrite E, E'. cbn [bind].
    split; [reflexivity|]. cbn [zip_mask concat]. eapply covers_app; eassumption.
Qed.

Lemma pack_nth_at fs i t v vs tao :
  nth_error fs i = Some t -> nth_error vs i = Some v ->
  pack_nth (map pack fs) i tao vs = pack t tao v.
Proof.
  revert i vs. induction fs as [|f fs IH]; intros i vs H1 H2; [destruct i; discriminate|].
  destruct vs as [|v0 vs]; [destruct i; discriminate|].
  destruct i as [|i]; cbn in *; [congruence|]. apply IH; assumption.
Qed.

Lemma nth_zip_mask fs vs i t v :
  nth_error fs i = Some t -> nth_error vs i = Some v ->
  nth i (zip_mask (map void_mask fs) vs) [] = void_mask t v.
Proof.
  revert vs i. induction fs as [|f fs IH]; intros vs i H1 H2.
  - destruct i; discriminate.
  - destruct vs as [|v0 vs]; [destruct i; discriminate|].
    destruct i as [|i]; cbn in *; [congruence|]. apply IH; assumption.
Qed.

Theorem unpack_pack t : wf_type t -> reenc t.
Proof.
  induction t as [k n cm|n|dyn et mx IH|u fs IH] using dtype_ind';
    intros Hwf s v rest H Hv HL.
  - change (unpack (TPrim k n cm) false s)
      with ('(b, s') <- base_unpack s n ;; Ok (VPrim b, s')) in H.
    apply bind_ok in H as ([b s'] & H0 & H). injection H as <- <-.
    apply base_unpack_inv in H0 as (Hl & Hge & -> & Hle); [|exact Hwf].
    exists (firstn n s). split.
    + change (pack (TPrim k n cm) false (VPrim b)) with (base_pack b n).
      unfold base_pack. cbn in Hwf. destruct b; [cbn in Hl; lia|exact Hle].
    + cbn [void_mask]. apply covers_exact. exact Hge.
  - change (unpack (TVoid n) false s) with (@Ok (value * bits) (VVoid, skipn n s)) in H.
    injection H as <- <-. exists (repeat false n). split; [reflexivity|].
    apply covers_void.
  - destruct Hwf as (He & _ & Hm). specialize (IH He).
    rewrite unpack_arr_eq in H.
    apply valid_arr_inv in Hv as (items & -> & HF & Hlen).
    cbn [void_mask] in HL. rewrite app_length in HL.
    destruct dyn; cbn [negb andb] in H.
    + cbn zeta in H. apply bind_ok in H as (a & H0 & H).
      apply bind_ok in H as ([vs s'] & H1 & H). injection H as -> ->.
      rewrite repeat_length, <- array_len_bits_bit_length in HL by lia.
      set (w := array_len_bits_from_max_size mx) in *.
      destruct (reenc_n _ _ _ _ _ IH H1 HF) as (bss & E & Hc);
        [rewrite skipn_length; lia|].
      apply unpack_n_inv with (P := fun _ => True) in H1 as [_ Hn]; [|auto].
      assert (length (firstn w s) = w) as Hw by (rewrite firstn_length; lia).
      apply le_be_roundtrip in H0 as [Hla Hle].
      rewrite firstn_firstn, Nat.min_id in Hle.
      exists (firstn w s ++ concat bss). split.
      * rewrite pack_arr_eq. cbn zeta. cbn [negb andb].
        rewrite firstn_all2 by lia. fold w.
        replace (py_format_b w (N.of_nat (length items))) with a.
        2:{ rewrite Hn, N2Nat.id. rewrite py_format_b_fit.
            - rewrite <- Hla. symmetry. apply bits_of_N_of_bits.
            - apply array_len_bits_pos. exact Hm.
            - rewrite <- Hla. apply N_of_bits_lt. }
        rewrite Hle. cbn [bind]. cbn [andb] in E. rewrite E. reflexivity.
      * cbn [void_mask]. eapply covers_app; [|exact Hc].
        rewrite <- array_len_bits_bit_length by lia. fold w.
        apply covers_exact. lia.
    + apply bind_ok in H as ([vs s'] & H1 & H). injection H as -> ->.
      destruct (reenc_n _ _ _ _ _ IH H1 HF) as (bss & E & Hc); [cbn in HL; lia|].
      exists (concat bss). split.
      * rewrite pack_arr_eq. cbn zeta. cbn [negb].
        rewrite firstn_all2 by lia. rewrite Hlen, Nat.sub_diag. cbn [repeat].
        rewrite app_nil_r. rewrite E. reflexivity.
      * cbn [void_mask app]. exact Hc.
  - apply wf_fields in Hwf as Hfs. destruct Hwf as [Hu _]. rewrite unpack_comp_eq in H.
    assert (Forall (fun t => reenc t) fs) as HF.
    { clear H Hv Hu HL. induction fs as [|f fs IHfs]; constructor;
        inversion IH; inversion Hfs; subst; auto. }
    apply valid_comp_inv in Hv as (vs & active & -> & H1 & H3).
    destruct u.
    + specialize (Hu eq_refl). cbn zeta in H.
      set (w := union_tag_bits_from_num_elements (length fs)) in *.
      destruct (firstn w s) as [|b0 l0] eqn:Ef; [discriminate|].
      rewrite <- Ef in H.
      set (tag := N.to_nat (N_of_bits (firstn w s))) in *.
      destruct (nth_error (map unpack fs) tag) as [uf|] eqn:En; [|discriminate].
      apply bind_ok in H as ([v1 s'] & H0 & H). injection H as <- <- ->.
      rewrite nth_error_map in En. destruct (nth_error fs tag) as [t|] eqn:Et; [|discriminate].
      cbn in En. injection En as <-.
      assert (tag < length fs) as Hlt by (apply nth_error_Some; congruence).
      assert (nth_error (list_set (map default fs) tag v1) tag = Some v1) as Hv1.
      { apply nth_error_list_set. rewrite map_length. exact Hlt. }
      assert (valid t v1) as Hval.
      { eapply Forall2_list_set_inv; [exact H1|exact Et|]. rewrite map_length. exact Hlt. }
      cbn [void_mask] in HL. cbn zeta in HL.
      rewrite app_length, repeat_length, (nth_zip_mask _ _ _ _ _ Et Hv1) in HL.
      replace (bit_length (length fs - 1)) with w in HL.
      2:{ unfold w. rewrite union_tag_bits_bit_length by exact Hu. f_equal. lia. }
      rewrite Forall_forall in HF.
      destruct (HF t (nth_error_In _ _ Et) _ _ _ H0 Hval) as (bs & E & Hc);
        [rewrite skipn_length; lia|].
      rewrite pack_comp_eq. cbn zeta.
      rewrite (pack_nth_at _ _ _ _ _ _ Et Hv1), E. cbn [bind].
      assert (length (firstn w s) = w) as Hw by (rewrite firstn_length; lia).
      eexists. split; [reflexivity|]. cbn [void_mask].
      rewrite (nth_zip_mask _ _ _ _ _ Et Hv1).
      eapply covers_app; [|exact Hc].
      replace (bit_length (length fs - 1)) with w.
      2:{ unfold w. rewrite union_tag_bits_bit_length by exact Hu. f_equal. lia. }
      fold w.
      replace (py_format_b w (N.of_nat tag)) with (firstn w s).
      2:{ rewrite py_format_b_fit.
          - unfold tag. rewrite N2Nat.id. rewrite <- Hw at 2.
            symmetry. apply bits_of_N_of_bits.
          - apply union_tag_bits_pos. exact Hu.
          - apply union_tag_bits_fit. exact Hlt. }
      apply covers_exact. lia.
    + subst active. apply bind_ok in H as ([vs' s'] & H0 & H). injection H as -> ->.
      destruct (reenc_struct fs s vs rest HF H0 H1) as (bs & E & Hc); [exact HL|].
      exists bs. split; [exact E|]. exact Hc.
Qed.

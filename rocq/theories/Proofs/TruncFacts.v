From Verif.Base Require Import Prelude Bits.
From Verif.Model Require Import BitCodec Types Codec.
From Verif.Spec Require Import CodecSpec.
From Verif.Proofs Require Import BitCodecFacts CodecFacts DecodeFacts.

(** Decoding that succeeded reads at least one bit and is not affected by
    bits that follow. *)
Definition mono (u : bool -> bits -> res (value * bits)) : Prop :=
  forall p q v r, u false p = Ok (v, r) ->
    length r < length p /\ u false (p ++ q) = Ok (v, r ++ q).

Definition mono0 {A} (u : bits -> res (A * bits)) : Prop :=
  forall p q v r, u p = Ok (v, r) ->
    length r <= length p /\ u (p ++ q) = Ok (v, r ++ q).

Lemma mono_unpack_n u n : mono u -> mono0 (unpack_n u n false).
Proof.
  intros Hu. induction n as [|n IH]; intros p q vs r H; cbn [unpack_n andb] in *.
  - injection H as <- <-. auto.
  - apply bind_ok in H as ([v s1] & E1 & H). apply bind_ok in H as ([vs1 s2] & E2 & H).
    injection H as <- <-. apply (Hu p q) in E1 as [L1 ->]. cbn [bind].
    apply (IH s1 q) in E2 as [L2 ->]. split; [lia|reflexivity].
Qed.

Lemma mono_unpack_struct us : Forall mono us -> mono0 (unpack_struct us false).
Proof.
  induction 1 as [|u us Hu Hus IH]; intros p q vs r H; cbn [unpack_struct andb] in *.
  - injection H as <- <-. auto.
  - apply bind_ok in H as ([v s1] & E1 & H). apply bind_ok in H as ([vs1 s2] & E2 & H).
    injection H as <- <-. apply (Hu p q) in E1 as [L1 ->]. cbn [bind].
    apply (IH s1 q) in E2 as [L2 ->]. split; [lia|reflexivity].
Qed.

Lemma be_from_le_mono p q n b : be_from_le_bits p n = Ok b ->
  n <= length p /\ be_from_le_bits (p ++ q) n = Ok b.
Proof.
  intros H. assert (n <= length p) as Hn.
  { unfold be_from_le_bits in H. destruct (length p <? n) eqn:E; [discriminate|].
    apply Nat.ltb_ge in E. exact E. }
  split; [exact Hn|].
  rewrite <- (firstn_skipn n p), <- app_assoc.
  rewrite <- (firstn_skipn n p) in H.
  rewrite be_from_le_prefix in H |- * by (rewrite firstn_length; lia).
  exact H.
Qed.

Lemma skipn_app_le {A} n (p q : list A) : n <= length p -> skipn n (p ++ q) = skipn n p ++ q.
Proof. intros H. rewrite skipn_app. replace (n - length p) with 0 by lia. reflexivity. Qed.

Lemma firstn_app_le {A} n (p q : list A) : n <= length p -> firstn n (p ++ q) = firstn n p.
Proof.
  intros H. rewrite firstn_app. replace (n - length p) with 0 by lia.
  cbn. apply app_nil_r.
Qed.

Theorem unpack_mono t : wf_type t -> no_gaps t -> mono (unpack t).
Proof.
  induction t as [k n cm|n|dyn et mx IH|u fs IH] using dtype_ind';
    intros Hwf Hg p q v r H.
  - change (unpack (TPrim k n cm) false p)
      with ('(b, s') <- base_unpack p n ;; Ok (VPrim b, s')) in H.
    change (unpack (TPrim k n cm) false (p ++ q))
      with ('(b, s') <- base_unpack (p ++ q) n ;; Ok (VPrim b, s')).
    apply bind_ok in H as ([b s'] & H0 & H). injection H as <- <-.
    cbn in Hwf. unfold base_unpack in *.
    replace (Nat.eqb n 0) with false in * by (symmetry; apply Nat.eqb_neq; lia).
    apply bind_ok in H0 as (b' & E & H0). injection H0 as -> <-.
    apply (be_from_le_mono _ q) in E as [Hn ->]. cbn [bind].
    rewrite skipn_app_le by exact Hn. rewrite skipn_length.
    split; [lia|reflexivity].
  - destruct Hg.
  - destruct Hwf as (He & _ & Hm). specialize (IH He Hg).
    rewrite unpack_arr_eq in H |- *. cbn [andb] in *.
    destruct dyn; cbn [negb] in *.
    + cbn zeta in *. set (w := array_len_bits_from_max_size mx) in *.
      pose proof (array_len_bits_pos mx Hm) as Hw. fold w in Hw.
      apply bind_ok in H as (a & H0 & H).
      apply bind_ok in H as ([vs s'] & H1 & H). injection H as <- <-.
      pose proof (be_from_le_mono _ [] _ _ H0) as [Hn _]. rewrite firstn_length in Hn.
      rewrite firstn_app_le, H0 by lia. cbn [bind].
      rewrite skipn_app_le by lia.
      apply (mono_unpack_n _ _ IH _ q) in H1 as [L ->]. cbn [bind].
      rewrite skipn_length in L. split; [lia|reflexivity].
    + apply bind_ok in H as ([vs s'] & H1 & H). injection H as <- <-.
      destruct mx as [|mx]; [lia|]. cbn [unpack_n] in H1. cbn [andb] in H1.
      apply bind_ok in H1 as ([v s1] & E1 & H1). apply bind_ok in H1 as ([vs1 s2] & E2 & H1).
      injection H1 as <- <-. cbn [unpack_n andb].
      apply (IH p q) in E1 as [L1 ->]. cbn [bind].
      apply (mono_unpack_n _ _ IH s1 q) in E2 as [L2 ->]. cbn [bind].
      split; [lia|reflexivity].
  - apply wf_fields in Hwf as Hfs. destruct Hwf as [Hu _]. destruct Hg as [Hne Hg].
    assert (Forall mono (map unpack fs)) as HF.
    { clear H Hu Hne. induction fs as [|f fs IHfs]; cbn [map]; constructor;
        inversion IH; inversion Hfs; destruct Hg; subst; auto. }
    rewrite unpack_comp_eq in H |- *. destruct u.
    + specialize (Hu eq_refl). cbn zeta in *.
      set (w := union_tag_bits_from_num_elements (length fs)) in *.
      destruct (firstn w p) as [|b0 l0] eqn:Ef; [discriminate|].
      rewrite <- Ef in H.
      destruct (nth_error (map unpack fs) (N.to_nat (N_of_bits (firstn w p)))) as [uf|] eqn:En;
        [|discriminate].
      apply bind_ok in H as ([v1 s'] & H0 & H). injection H as <- <-.
      rewrite Forall_forall in HF.
      apply (HF uf (nth_error_In _ _ En) _ q) in H0 as [L E].
      rewrite skipn_length in L.
      rewrite firstn_app_le, Ef by lia. rewrite <- Ef.
      rewrite En, skipn_app_le, E by lia. cbn [bind]. split; [lia|reflexivity].
    + apply bind_ok in H as ([vs s'] & H0 & H). injection H as <- <-.
      destruct fs as [|f fs]; [congruence|]. cbn [map unpack_struct andb] in *.
      inversion HF as [|? ? Hf HF']; subst.
      apply bind_ok in H0 as ([v s1] & E1 & H0). apply bind_ok in H0 as ([vs1 s2] & E2 & H0).
      injection H0 as <- <-.
      apply (Hf p q) in E1 as [L1 ->]. cbn [bind].
      apply (mono_unpack_struct _ HF' s1 q) in E2 as [L2 ->]. cbn [bind].
      split; [lia|reflexivity].
Qed.

Theorem truncated_rejected t : wf_type t -> no_gaps t ->
  forall v bs p q, valid t v -> pack t false v = Ok bs -> bs = p ++ q -> q <> [] ->
  is_ok (unpack t false p) = false.
Proof.
  intros Hwf Hg v bs p q Hv Hp -> Hq.
  destruct (unpack t false p) as [[v' r]|e] eqn:E; [|reflexivity].
  apply (unpack_mono t Hwf Hg p q) in E as [_ E].
  destruct (pack_unpack t Hwf v Hv false) as (bs & Hp' & Hrt).
  rewrite Hp in Hp'. injection Hp' as <-.
  destruct (Hrt []) as (v2 & rest & E2 & H); [lia || auto|].
  rewrite app_nil_r, E in E2. injection E2 as -> <-.
  destruct H as (_ & _ & [H|[H _]]); [|discriminate].
  apply app_eq_nil in H as [_ ->]. congruence.
Qed.

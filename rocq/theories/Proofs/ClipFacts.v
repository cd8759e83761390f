From Verif.Base Require Import Prelude Bits.
From Verif.Model Require Import BitCodec Types Codec.
From Verif.Spec Require Import CodecSpec.
From Verif.Proofs Require Import BitCodecFacts CodecFacts DecodeFacts WireFacts.

Definition clips (t : dtype) : Prop := forall v, loose t v ->
  valid t (clip t v) /\ forall tao, pack t tao v = pack t tao (clip t v).

Lemma mapM_last_map (f : bool -> value -> res bits) g l :
  Forall (fun v => forall last, f last v = f last (g v)) l ->
  forall l', mapM_last f (l ++ l') = mapM_last f (map g l ++ l').
Proof.
  induction 1 as [|x l Hx Hl IH]; intros l'; [reflexivity|].
  cbn [map app mapM_last]. rewrite Hx, IH.
  replace (match map g l ++ l' with [] => true | _ => false end)
    with (match l ++ l' with [] => true | _ => false end); [reflexivity|].
  destruct l; reflexivity.
Qed.

Lemma Forall_firstn {A} (P : A -> Prop) n l : Forall P l -> Forall P (firstn n l).
Proof.
  intros H. revert n. induction H; intros [|n]; cbn; constructor; auto.
Qed.

Lemma zip_clip_valid fs vs : Forall clips fs -> Forall2 loose fs vs ->
  Forall2 valid fs (zip_clip (map clip fs) vs).
Proof.
  intros HF H. revert HF. induction H as [|f v fs vs Hf Hfs IH]; intros HF; cbn; [constructor|].
  inversion HF as [|? ? Hc HF']; subst. constructor; [apply Hc, Hf|auto].
Qed.

Lemma zip_clip_struct fs vs tao : Forall clips fs -> Forall2 loose fs vs ->
  pack_struct (map pack fs) tao vs = pack_struct (map pack fs) tao (zip_clip (map clip fs) vs).
Proof.
  intros HF H. revert HF. induction H as [|f v fs vs Hf Hfs IH]; intros HF; [reflexivity|].
  inversion HF as [|? ? Hc HF']; subst. cbn [map pack_struct zip_clip].
  destruct (Hc v Hf) as [_ <-]. rewrite (IH HF'). reflexivity.
Qed.

Lemma zip_clip_nth fs vs i tao : Forall clips fs -> Forall2 loose fs vs ->
  pack_nth (map pack fs) i tao vs = pack_nth (map pack fs) i tao (zip_clip (map clip fs) vs).
Proof.
  intros HF H. revert i HF. induction H as [|f v fs vs Hf Hfs IH]; intros i HF; [reflexivity|].
  inversion HF as [|? ? Hc HF']; subst. cbn [map zip_clip pack_nth].
  destruct i; [|apply IH, HF']. destruct (Hc v Hf) as [_ <-]. reflexivity.
Qed.

Theorem pack_clip t : wf_type t -> clips t.
Proof.
  induction t as [k n cm|n|dyn et mx IH|u fs IH] using dtype_ind'; intros Hwf v Hv.
  - inversion Hv; subst. split; [constructor|]; reflexivity.
  - inversion Hv; subst. split; [constructor|reflexivity].
  - destruct Hwf as (He & _ & Hm). specialize (IH He).
    inversion Hv as [| |? ? ? items HF| |]; subst. cbn [clip].
    assert (Forall (valid et) (map (clip et) (firstn mx items))) as HV.
    { apply Forall_map, Forall_firstn. eapply Forall_impl; [|exact HF].
      intros a Ha. apply IH, Ha. }
    assert (forall p : bool -> bool, Forall (fun v => forall last,
              pack et (p last) v = pack et (p last) (clip et v)) (firstn mx items)) as HP.
    { intros p. apply Forall_firstn. eapply Forall_impl; [|exact HF].
      intros a Ha last. apply (proj2 (IH a Ha)). }
    destruct dyn.
    + split.
      { constructor; [exact HV|]. rewrite map_length, firstn_length. lia. }
      intros tao. rewrite !pack_arr_eq. cbn zeta. cbn [negb].
      rewrite (firstn_all2 (map _ _)) by (rewrite map_length, firstn_length; lia).
      rewrite map_length.
      pose proof (mapM_last_map (fun _ i => pack et false i) _ _ (HP (fun _ => false)) []) as E1.
      pose proof (mapM_last_map (fun last i => pack et (tao && last) i) _ _ (HP (andb tao)) []) as E2.
      rewrite !app_nil_r in E1, E2. rewrite E1, E2. reflexivity.
    + split.
      { constructor.
        - apply Forall_app. split; [exact HV|]. apply Forall_forall. intros x Hx.
          apply repeat_spec in Hx as ->. apply default_valid, He.
        - rewrite app_length, map_length, firstn_length, repeat_length. lia. }
      intros tao. rewrite !pack_arr_eq. cbn zeta. cbn [negb].
      assert (length (map (clip et) (firstn mx items) ++ repeat (default et) (mx - length items)) = mx)
        as Hl by (rewrite app_length, map_length, firstn_length, repeat_length; lia).
      rewrite (firstn_all2 (map (clip et) _ ++ _)) by lia.
      rewrite Hl, Nat.sub_diag. cbn [repeat]. rewrite app_nil_r.
      rewrite firstn_length.
      replace (mx - Nat.min mx (length items)) with (mx - length items) by lia.
      rewrite (mapM_last_map (fun last i => pack et (tao && last) i) _ _ (HP (andb tao))).
      reflexivity.
  - apply wf_fields in Hwf as Hfs. destruct Hwf as [Hu _].
    assert (Forall clips fs) as HF.
    { clear Hu Hv. induction fs as [|f fs IHfs]; constructor;
        inversion IH; inversion Hfs; subst; auto. }
    inversion Hv as [| | |? vs HL|? vs active HL Ha]; subst; cbn [clip].
    + split; [constructor; apply zip_clip_valid; assumption|].
      intros tao. rewrite !pack_comp_eq. apply zip_clip_struct; assumption.
    + split; [constructor; [apply zip_clip_valid; assumption|exact Ha]|].
      intros tao. rewrite !pack_comp_eq. cbn zeta.
      rewrite (zip_clip_nth fs vs) by assumption. reflexivity.
Qed.

(** Whatever a decoder accepts is [loose]. *)
Lemma Forall2_list_set {A B} (R : A -> B -> Prop) la lb i b :
  Forall2 R la lb -> (forall a, nth_error la i = Some a -> R a b) ->
  Forall2 R la (list_set lb i b).
Proof. apply list_set_Forall2. Qed.

Lemma valid_loose t v : valid t v -> loose t v.
Proof.
  revert v. induction t as [k n cm|n|dyn et mx IH|u fs IH] using dtype_ind'; intros v Hv.
  - inversion Hv; subst; constructor; reflexivity.
  - inversion Hv; subst; constructor.
  - inversion Hv; subst; constructor; eapply Forall_impl; eauto.
  - assert (forall vs, Forall2 valid fs vs -> Forall2 loose fs vs) as H.
    { clear Hv. intros vs H. induction H; constructor; inversion IH; subst; auto. }
    inversion Hv; subst; constructor; auto.
Qed.

Theorem unpack_loose t : wf_type t -> forall tao s v rest,
  unpack t tao s = Ok (v, rest) -> loose t v.
Proof.
  induction t as [k n cm|n|dyn et mx IH|u fs IH] using dtype_ind';
    intros Hwf tao s v rest H.
  - change (unpack (TPrim k n cm) tao s)
      with ('(b, s') <- base_unpack s n ;; Ok (VPrim b, s')) in H.
    apply bind_ok in H as ([b s'] & H0 & H). injection H as <- <-.
    apply base_unpack_inv in H0 as (Hl & _); [|exact Hwf].
    constructor. exact Hl.
  - change (unpack (TVoid n) tao s) with (@Ok (value * bits) (VVoid, skipn n s)) in H.
    injection H as <- <-. constructor.
  - destruct Hwf as (He & _ & Hm). specialize (IH He).
    rewrite unpack_arr_eq in H. destruct dyn; cbn [negb] in H.
    + destruct (tao && (8 <=? get_min_bitlen et)).
      * apply bind_ok in H as (vs & H0 & H). injection H as <- <-. constructor.
        eapply unpack_tao_inv; [|exact H0]. intros; eapply IH; eauto.
      * cbn zeta in H. apply bind_ok in H as (a & H0 & H).
        apply bind_ok in H as ([vs s'] & H1 & H). injection H as <- <-. constructor.
        eapply unpack_n_inv; [|exact H1]. intros; eapply IH; eauto.
    + apply bind_ok in H as ([vs s'] & H0 & H). injection H as <- <-. constructor.
      eapply unpack_n_inv; [|exact H0]. intros; eapply IH; eauto.
  - apply wf_fields in Hwf as Hfs. rewrite unpack_comp_eq in H.
    assert (Forall (fun t => forall tao s v s', unpack t tao s = Ok (v, s') -> loose t v) fs) as HF.
    { clear H Hwf. induction fs as [|f fs IHfs]; constructor;
        inversion IH; inversion Hfs; subst; auto. intros. eapply H1; eauto. }
    destruct u.
    + cbn zeta in H. set (w := union_tag_bits_from_num_elements (length fs)) in *.
      destruct (firstn w s) as [|b0 l0] eqn:Ef; [discriminate|].
      set (tag := N.to_nat (N_of_bits (b0 :: l0))) in *.
      destruct (nth_error (map unpack fs) tag) as [uf|] eqn:En; [|discriminate].
      apply bind_ok in H as ([v1 s'] & H0 & H). injection H as <- <-.
      rewrite nth_error_map in En. destruct (nth_error fs tag) as [t|] eqn:Et; [|discriminate].
      cbn in En. injection En as <-.
      assert (tag < length fs) as Hlt by (apply nth_error_Some; congruence).
      constructor.
      * apply list_set_Forall2.
        { clear - Hfs. induction Hfs; cbn; constructor; auto. apply valid_loose, default_valid, H. }
        intros a Ha. assert (a = t) as -> by congruence.
        rewrite Forall_forall in HF. eapply HF; [eapply nth_error_In; exact Et|exact H0].
      * intros i [= <-]. exact Hlt.
    + apply bind_ok in H as ([vs s'] & H0 & H). injection H as <- <-. constructor.
      clear - HF H0. revert s vs H0. induction HF as [|f fs Hf Hfs IH]; intros s vs H;
        cbn [map unpack_struct] in H.
      * injection H as <- <-. constructor.
      * apply bind_ok in H as ([v s1] & E1 & H). apply bind_ok in H as ([vs1 s2] & E2 & H).
        injection H as <- <-. constructor; eauto.
Qed.
